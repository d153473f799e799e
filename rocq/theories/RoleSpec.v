(** * What a role token is: a spec independent of the parser *)
From Verif Require Export Base.

(** A field is a key and a value; the text of a field is key=value; the signed text
    joins the fields with semicolons; the token appends ;s= and the signature. *)
Notation field := (str * str)%type.
Definition field_text (f : str * str) : str := fst f ++ "="%char :: snd f.
Fixpoint signed_text (fs : list (str * str)) : str :=
  match fs with
  | [] => []
  | [f] => field_text f
  | f :: fs => field_text f ++ ";"%char :: signed_text fs
  end.
Definition token_text (fs : list (str * str)) (sig : str) : str := signed_text fs ++ B ";s=" ++ sig.

(** The text determines the fields: no separators inside, and no field but the first is
    called s (that would end the signed text). *)
Definition well_formed (fs : list (str * str)) : Prop :=
  fs <> [] /\
  (forall k v, (k, v) ∈ fs -> "="%char ∉ k /\ ";"%char ∉ k /\ ";"%char ∉ v) /\
  (forall k v, (k, v) ∈ tail fs -> k <> B "s").

(** The value of a key is that of its last field. *)
Fixpoint last_value (fs : list (str * str)) (k : str) : option str :=
  match fs with
  | [] => None
  | (k', v) :: fs =>
      match last_value fs k with
      | Some v' => Some v'
      | None => if bool_decide (k' = k) then Some v else None
      end
  end.
Lemma last_value_spec fs k v : last_value fs k = Some v <->
  exists l1 l2, fs = l1 ++ (k, v) :: l2 /\ forall v', (k, v') ∉ l2.
Proof.
  revert v. induction fs as [|[k' v'] fs IH]; intros v; cbn [last_value].
  - split; [done|]. intros ([|] & l2 & H & _); done.
  - destruct (last_value fs k) as [w|] eqn:E.
    + rewrite IH. split.
      * intros (l1 & l2 & -> & Hn). by exists ((k', v') :: l1), l2.
      * intros (l1 & l2 & H & Hn). destruct l1 as [|x l1]; cbn in H; [injection H as _ _ Hl|injection H as _ Hl; by exists l1, l2].
        exfalso. destruct (proj1 (IH w) eq_refl) as (a & b & Hab & _). apply (Hn w). rewrite <- Hl, Hab. apply elem_of_app. right. left.
    + destruct (bool_decide_reflect (k' = k)) as [->|Hne].
      * split.
        -- intros [= ->]. exists [], fs. split; [done|]. intros x Hx. apply elem_of_list_split in Hx as (a & b & Hab).
           assert (exists w, last_value fs k = Some w) as [w Hw]; [|by rewrite E in Hw].
           clear -Hab. rewrite Hab. clear. induction a as [|[k1 v1] a IH]; cbn [app last_value].
           ++ destruct (last_value b k); [eauto|]. rewrite bool_decide_eq_true_2 by done. eauto.
           ++ destruct IH as [w ->]. eauto.
        -- intros (l1 & l2 & H & Hn). destruct l1 as [|x l1]; cbn in H; [by injection H as -> _|injection H as _ Hl].
           assert (None = Some v) as [=]. apply IH. by exists l1, l2.
      * split; [done|]. intros (l1 & l2 & H & Hn). destruct l1 as [|x l1]; cbn in H; [by injection H as ? _ _|injection H as _ Hl].
        assert (None = Some v) as [=]. apply IH. by exists l1, l2.
Qed.

(** Decimal rendering of an integer. *)
Definition digit_char (d : Z) : ascii := ascii_of_N (Z.to_N (48 + d)).
Fixpoint dec_go (fuel : nat) (n : Z) : str :=
  match fuel with
  | O => []
  | S fuel => if n <? 10 then [digit_char n] else dec_go fuel (n / 10) ++ [digit_char (n mod 10)]
  end.
Definition dec (z : Z) : str :=
  if z <? 0 then "-"%char :: dec_go 20 (- z) else dec_go 20 z.
