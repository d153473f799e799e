(** * What a policy document says, written on the document itself *)
From Verif Require Export PolicySimplify AssertionSpec PolicySpec.

Section doc.
  Context (U : unicode) (domain action resource : str).

  (** The assertion is about the role of the domain and applies to the request. *)
  Definition raw_applies (role : str) (r : raw) : Prop :=
    r_role r = domain ++ B ":role." ++ role /\ applies U (r_action r) (r_resource r) domain action resource.

  (** "deny" in any case, anything else is an allow. *)
  Definition raw_deny (r : raw) : Prop := equal_fold U (B "deny") (r_effect r) = true.

  Definition doc_denies (doc : document) (role : str) : Prop :=
    exists pol r, pol ∈ doc /\ r ∈ pol /\ raw_applies role r /\ raw_deny r.
  Definition doc_allows (doc : document) (role : str) : Prop :=
    exists pol r, pol ∈ doc /\ r ∈ pol /\ raw_applies role r /\ ~ raw_deny r.
End doc.

(** Role names and actions contain no comma. *)
Definition no_commas (doc : document) : Prop :=
  forall pol r, pol ∈ doc -> r ∈ pol -> ","%char ∉ r_role r /\ ","%char ∉ r_action r.

(** Two assertions talk about the same thing. *)
Definition same_target (r r' : raw) : Prop :=
  r_role r = r_role r' /\ r_action r = r_action r' /\ r_resource r = r_resource r'.

(** No two different policies of the document hold opposite effects for the same target. *)
Definition no_cross_conflict (U : unicode) (doc : document) : Prop :=
  forall i j poli polj r r', i <> j -> doc !! i = Some poli -> doc !! j = Some polj ->
    r ∈ poli -> r' ∈ polj -> same_target r r' -> raw_deny U r -> raw_deny U r'.

(** At no instant of the run are two goroutines between the Load and the Store of the same key. *)
Definition race_free (U : unicode) (ls : list slabel) (s0 : sst) : Prop :=
  forall ls1 ls2 s i j a f rest b f' rest', ls = ls1 ++ ls2 -> srun U ls1 s0 = Some s ->
    ss_work s !! i = Some (SStore a f rest) -> ss_work s !! j = Some (SStore b f' rest') ->
    km a = km b -> i = j.
