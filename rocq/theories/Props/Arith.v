(** Scalar arithmetic of ico2: C01, C02, C03, C05. *)
From Coq Require Import Reals List ZArith Lia Lra Bool.
From Verif Require Import Base.Res Model.Tau Model.Arr Model.IcoScalar Spec.Value Spec.RVec Spec.Shape.
From Verif Require Import Proofs.P_Arith.
Import ListNotations.
Local Open Scope R_scope.

(** C01: add, sub and mul succeed with the canonical triple of the exact result. *)
Theorem C01_add_exact : forall a b, wf a -> wf b -> evals TAU (add a b) (val TAU a + val TAU b).
Proof. exact L_C01_add_exact. Qed.
Print Assumptions C01_add_exact.

Theorem C01_sub_exact : forall a b, wf a -> wf b -> evals TAU (sub a b) (val TAU a - val TAU b).
Proof. exact L_C01_sub_exact. Qed.
Print Assumptions C01_sub_exact.

Theorem C01_mul_exact : forall a b, wf a -> wf b -> evals TAU (mul a b) (val TAU a * val TAU b).
Proof. exact L_C01_mul_exact. Qed.
Print Assumptions C01_mul_exact.

Example C01_ex : wf (T 1 2 (-4)) /\ wf (T 3 (-1) 6) /\
  add (T 1 2 (-4)) (T 3 (-1) 6) = Ok (T 3 (-8) 12) /\
  sub (T 1 2 (-4)) (T 3 (-1) 6) = Ok (T (-9) (-4) 12) /\
  mul (T 1 2 (-4)) (T 3 (-1) 6) = Ok (T (-1) (-3) 24).
Proof. exact E_C01_ex. Qed.

(** C02: div answers None exactly for a divisor denoting zero, otherwise the
    canonical triple of the exact quotient. *)
Theorem C02_div_exact : forall a b, wf a -> wf b -> val TAU b <> 0 ->
  exists r, div a b = Ok (Some r) /\ canon r /\ val TAU r = val TAU a / val TAU b.
Proof. exact L_C02_div_exact. Qed.
Print Assumptions C02_div_exact.

Theorem C02_div_none : forall a b, wf a -> wf b -> (div a b = Ok None <-> val TAU b = 0).
Proof. exact L_C02_div_none. Qed.
Print Assumptions C02_div_none.

(** The norm form used as denominator vanishes only at zero, so the branch
    ERROR_2 cannot be reached from a divisor that passed the first test. *)
Theorem C02_norm_nonzero : forall b0 b1 : Z, (b0 <> 0 \/ b1 <> 0)%Z -> (b0 * b0 - b1 * b1 + b0 * b1 <> 0)%Z.
Proof. exact L_C02_norm_nonzero. Qed.
Print Assumptions C02_norm_nonzero.

Example C02_ex : wf (T 1 0 1) /\ wf (T 0 1 1) /\ div (T 1 0 1) (T 0 1 1) = Ok (Some (T (-1) 1 1)) /\
  div (T 5 7 3) (T 2 (-3) 4) = Ok (Some (T (-64) (-116) 33)) /\ div (T 1 0 1) (T 0 0 5) = Ok None.
Proof. exact E_C02_ex. Qed.

(** C03: canonical triples are equal iff the numbers they denote are equal, for
    scalars, vectors and lists of vectors. *)
Theorem C03_canonical : forall x y, canon x -> canon y -> (val TAU x = val TAU y <-> x = y).
Proof. exact L_C03_canonical. Qed.
Print Assumptions C03_canonical.

Theorem C03_canonical_vectors : forall u v, canonv u -> canonv v -> (vals TAU u = vals TAU v <-> u = v).
Proof. exact L_C03_canonical_vectors. Qed.
Print Assumptions C03_canonical_vectors.

(** Every well-formed triple has exactly one canonical representative. *)
Theorem C03_canonical_unique : forall x, wf x ->
  exists r, canon r /\ val TAU r = val TAU x /\ forall r', canon r' -> val TAU r' = val TAU x -> r' = r.
Proof. exact L_C03_canonical_unique. Qed.
Print Assumptions C03_canonical_unique.

(** Without canonical form the comparison of arrays is not the comparison of numbers. *)
Theorem C03_noncanonical_differs : exists x y, wf x /\ wf y /\ val TAU x = val TAU y /\ x <> y.
Proof. exact L_C03_noncanonical_differs. Qed.
Print Assumptions C03_noncanonical_differs.

Example C03_ex : canon (T 3 (-8) 12) /\ canon (T 3 (-8) 12) /\ ~ canon (T 2 2 4) /\ ~ canon (T 1 1 (-1)).
Proof. exact E_C03_ex. Qed.

(** C05: behaviour on zero denominators. *)
Theorem C05_add_raises : forall a b, (exists e, add a b = Raise e) <->
  (ta a * tc b + ta b * tc a = 0 /\ tb a * tc b + tb b * tc a = 0 /\ tc a * tc b = 0)%Z.
Proof. exact L_C05_add_raises. Qed.
Print Assumptions C05_add_raises.

Theorem C05_mul_raises : forall a b, (exists e, mul a b = Raise e) <->
  (ta a * ta b + tb a * tb b = 0 /\ ta a * tb b + tb a * ta b + tb a * tb b = 0 /\ tc a * tc b = 0)%Z.
Proof. exact L_C05_mul_raises. Qed.
Print Assumptions C05_mul_raises.

Theorem C05_only_ValueError : forall a b e, add a b = Raise e \/ mul a b = Raise e \/ sub a b = Raise e ->
  e = ValueError.
Proof. exact L_C05_only_ValueError. Qed.
Print Assumptions C05_only_ValueError.

Theorem C05_zero_den_propagates : forall a b r, (tc a = 0 \/ tc b = 0)%Z ->
  add a b = Ok r \/ mul a b = Ok r \/ sub a b = Ok r -> tc r = 0%Z.
Proof. exact L_C05_zero_den_propagates. Qed.
Print Assumptions C05_zero_den_propagates.

Theorem C05_div_never_raises : forall a b, exists o, div a b = Ok o.
Proof. exact L_C05_div_never_raises. Qed.
Print Assumptions C05_div_never_raises.

Example C05_ex : add (T 1 0 0) (T 1 1 2) = Ok (T 1 0 0) /\ add (T 1 0 0) (T 1 1 0) = Raise ValueError
  /\ mul (T 1 1 0) (T 3 0 1) = Ok (T 1 1 0) /\ mul (T 0 0 0) (T 3 0 1) = Raise ValueError
  /\ sub (T 1 0 1) (T 0 0 0) = Raise ValueError /\ div (T 1 0 0) (T 2 0 1) = Ok (Some (T 1 0 0)).
Proof. exact E_C05_ex. Qed.
