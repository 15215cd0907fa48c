(** Selecting points by number. *)
From Coq Require Import List ZArith.
From Verif Require Import Model.Tau Model.Arr.

(** p: the points of the list o with the numbers l, counted from 1. *)
Definition numbered (o : vecs) (l : list Z) (p : vecs) : Prop :=
  Forall2 (fun i v => (1 <= i)%Z /\ nth_error o (Z.to_nat (i - 1)) = Some v) l p.
