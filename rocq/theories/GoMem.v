(** * The Go memory model
    go.dev/ref/mem, version of June 2022, for locations of the size of a word.  The other models of
    this development take each step of a goroutine to be atomic; here are executions by the letter of
    the memory model, in which an ordinary read may observe any write that it is not ordered with. *)
From Verif Require Export Base.

Inductive kind := Plain | Sync.

Section mem.
  Context {loc role : Type}.
  (** A pointer, or the content of an object: nil (zero) or object number n. *)
  Inductive val := VNil | VObj (n : nat).
  (** Memory operations with the values read and written.  [ARead Sync], [AWrite Sync] and [ASwap] are
      atomic.LoadPointer, StorePointer and SwapPointer; [AGo] a go statement, [AJoin] the Wait of an
      errgroup for one of its goroutines, which returned an error or not; [AQuit] a mark without effect. *)
  Inductive acc :=
  | ARead (k : kind) (x : loc) (v : val)
  | AWrite (k : kind) (x : loc) (v : val)
  | ASwap (x : loc) (old new : val)
  | AGo (g : nat) (r : role)
  | AJoin (g : nat) (ok : bool)
  | AQuit.
  Definition reads (a : acc) : option (loc * val) := match a with ARead _ x v | ASwap x v _ => Some (x, v) | _ => None end.
  Definition writes (a : acc) : option (loc * val) := match a with AWrite _ x v | ASwap x _ v => Some (x, v) | _ => None end.
  Definition plain (a : acc) : Prop := match a with ARead Plain _ _ | AWrite Plain _ _ => True | _ => False end.

  (** An event: the goroutine, the operation, and for a read the write it observes (the mapping W of the
      memory model); [None] is the initial value, written before everything. *)
  Record event := Ev { e_g : nat; e_op : acc; e_rf : option nat }.
  (** The order of the list is consistent with the sequence of each goroutine and is the implicit total
      order of the synchronizing operations; of an ordinary operation the position says nothing else. *)
  Notation exec := (list event).
  Definition ev_at (e : exec) (i : nat) (g : nat) (a : acc) : Prop := exists rf, e !! i = Some (Ev g a rf).

  (** Happens before: the transitive closure of sequenced before and synchronized before. *)
  Inductive hb (e : exec) : nat -> nat -> Prop :=
  | hb_seq i j g a b : ev_at e i g a -> ev_at e j g b -> (i < j)%nat -> hb e i j
  | hb_sync i j g g' a b x v u : ev_at e i g a -> ~ plain a -> writes a = Some (x, v) ->
      e !! j = Some (Ev g' b (Some i)) -> ~ plain b -> reads b = Some (x, u) -> hb e i j
  | hb_go i j g g' r b : ev_at e i g (AGo g' r) -> ev_at e j g' b -> hb e i j
  | hb_join i j g g' a ok : ev_at e i g a -> ev_at e j g' (AJoin g ok) -> hb e i j
  | hb_trans i j k : hb e i j -> hb e j k -> hb e i k.

  Definition writes_at (e : exec) (i : nat) (x : loc) (v : val) : Prop := exists g a, ev_at e i g a /\ writes a = Some (x, v).

  Record go_execution (ini : loc -> val) (e : exec) : Prop := {
    (** W(r) is a write to the location, of the value read. *)
    ge_value j g a w x v : e !! j = Some (Ev g a w) -> reads a = Some (x, v) ->
      match w with None => v = ini x | Some i => writes_at e i x v end;
    (** Requirement 2: a synchronizing read observes the last write in the total order.  (The locations
        of atomic operations are written by atomic operations only, but for the initial value.) *)
    ge_sync j g a w x v : e !! j = Some (Ev g a w) -> reads a = Some (x, v) -> ~ plain a ->
      match w with None => True | Some i => (i < j)%nat end /\
      (forall k u, writes_at e k x u -> (k < j)%nat -> match w with None => False | Some i => (k <= i)%nat end);
    (** An ordinary read observes a write that it does not happen before and that is not overwritten
        before it: requirement 3 if it does not race, and what the memory model promises of words if it does. *)
    ge_read j g a w x v : e !! j = Some (Ev g a w) -> reads a = Some (x, v) -> plain a ->
      match w with
      | None => forall k u, writes_at e k x u -> ~ hb e k j
      | Some i => ~ hb e j i /\ (forall k u, writes_at e k x u -> ~ (hb e i k /\ hb e k j))
      end;
    (** A goroutine runs after the go statement and before the Wait. *)
    ge_go i j g g' r b : ev_at e i g (AGo g' r) -> ev_at e j g' b -> (i < j)%nat;
    ge_join i j g g' a ok : ev_at e i g a -> ev_at e j g' (AJoin g ok) -> (i < j)%nat
  }.

  (** A data race: two conflicting operations, one of them ordinary, not ordered by happens before. *)
  Definition conflict (a b : acc) : Prop :=
    exists x v u, (reads a = Some (x, v) \/ writes a = Some (x, v)) /\ (reads b = Some (x, u) \/ writes b = Some (x, u)) /\
      (writes a = Some (x, v) \/ writes b = Some (x, u)).
  Definition race (e : exec) (i j : nat) : Prop :=
    exists g g' a b, ev_at e i g a /\ ev_at e j g' b /\ i <> j /\ conflict a b /\ (plain a \/ plain b) /\ ~ hb e i j /\ ~ hb e j i.
  (** No read observes a write that depends on it: for the witnesses. *)
  Definition causal (e : exec) : Prop :=
    exists rank : nat -> nat, (forall i j, hb e i j -> (rank i < rank j)%nat) /\
      (forall i j g a, e !! j = Some (Ev g a (Some i)) -> (rank i < rank j)%nat).

  (** ** The operations of one goroutine *)
  Definition proj (g : nat) (e : exec) : list acc := map e_op (filter (fun a => e_g a = g) e).
End mem.
Arguments acc : clear implicits.
Arguments event : clear implicits.
Notation exec loc role := (list (event loc role)).
