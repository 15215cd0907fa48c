(** Lists as finite sets and sequences. *)
From Coq Require Import List ZArith.
From Verif Require Import Model.Tau Model.Arr Spec.Value Spec.RVec Spec.IcoSpec.
Import ListNotations.

(** Same elements. *)
Definition same_set {A} (l l' : list A) : Prop := forall x, In x l <-> In x l'.

(** l has exactly n different elements. *)
Definition card {A} (l : list A) (n : nat) : Prop :=
  exists d, NoDup d /\ same_set d l /\ length d = n.

(** Lexicographic order on sequences of integers. *)
Definition lexlt (l l' : list Z) : Prop :=
  (exists x s, l' = l ++ x :: s) \/
  (exists p x y s s', l = p ++ x :: s /\ l' = p ++ y :: s' /\ (x < y)%Z).

(** Sub-sequence: some elements, in the same order. *)
Inductive subseq {A} : list A -> list A -> Prop :=
| sub_nil l : subseq [] l
| sub_take x s l : subseq s l -> subseq (x :: s) (x :: l)
| sub_skip x s l : subseq s l -> subseq s (x :: l).

(** The components of a vector, one after the other. *)
Definition components (v : vec) : list Z := concat (map (fun t => [ta t; tb t; tc t]) v).

(** The point of perpendicular space denoted by a 6-d vector. *)
Definition ppoint (v : vec) : list Reals.Rdefinitions.R := perp (vals TAU v).
