(** The real number a triple denotes, and what "well formed", "canonical" and
    "irrational" mean.  Nothing here refers to the arithmetic of the model. *)
From Coq Require Import Reals ZArith.
From Verif Require Import Model.Tau.
Local Open Scope R_scope.

(** The two irrationals used by the packages. *)
Definition TAU : R := (1 + sqrt 5) / 2.     (* ico2 *)
Definition SIN : R := sqrt 3 / 2.           (* dode2 *)

(** [a,b,c] denotes (a + b*w)/c. *)
Definition val (w : R) (t : tau) : R := (IZR (ta t) + IZR (tb t) * w) / IZR (tc t).

(** The denominator is not zero. *)
Definition wf (t : tau) : Prop := tc t <> 0%Z.

(** Lowest terms, positive denominator. *)
Definition canon (t : tau) : Prop :=
  (0 < tc t)%Z /\ Z.gcd (Z.gcd (ta t) (tb t)) (tc t) = 1%Z.

(** w is irrational. *)
Definition irrational (w : R) : Prop :=
  forall p q : Z, IZR p + IZR q * w = 0 -> p = 0%Z /\ q = 0%Z.

(** Every component is at most B in absolute value. *)
Definition within (B : Z) (t : tau) : Prop :=
  (Z.abs (ta t) <= B /\ Z.abs (tb t) <= B /\ Z.abs (tc t) <= B)%Z.

(** Every component fits an int64. *)
Definition int64 (t : tau) : Prop :=
  (- 2^63 <= ta t < 2^63 /\ - 2^63 <= tb t < 2^63 /\ - 2^63 <= tc t < 2^63)%Z.
