(** Scalar arithmetic of dode2: C45, C46. *)
From Coq Require Import Reals List ZArith Lia Lra Bool.
From Verif Require Import Base.Res Model.Tau Model.Arr Model.IcoScalar Model.DodeScalar Spec.Value Spec.RVec Spec.Shape.
From Verif Require Import Proofs.P_DodeArith.
Import ListNotations.
Local Open Scope R_scope.

(** C45: add, sub and mul succeed with the canonical triple of the exact result. *)
Theorem C45_add_exact : forall a b, wf a -> wf b -> evals SIN (dadd a b) (val SIN a + val SIN b).
Proof. exact L_C45_add_exact. Qed.
Print Assumptions C45_add_exact.

Theorem C45_sub_exact : forall a b, wf a -> wf b -> evals SIN (dsub a b) (val SIN a - val SIN b).
Proof. exact L_C45_sub_exact. Qed.
Print Assumptions C45_sub_exact.

Theorem C45_mul_exact : forall a b, wf a -> wf b -> evals SIN (dmul a b) (val SIN a * val SIN b).
Proof. exact L_C45_mul_exact. Qed.
Print Assumptions C45_mul_exact.

Theorem C45_div_exact : forall a b, wf a -> wf b -> val SIN b <> 0 ->
  exists r, ddiv a b = Ok (Some r) /\ canon r /\ val SIN r = val SIN a / val SIN b.
Proof. exact L_C45_div_exact. Qed.
Print Assumptions C45_div_exact.

Theorem C45_div_none : forall a b, wf a -> wf b -> (ddiv a b = Ok None <-> val SIN b = 0).
Proof. exact L_C45_div_none. Qed.
Print Assumptions C45_div_none.

(** The branch for 4*b0^2 = 3*b1^2 is never taken by a non-zero divisor. *)
Theorem C45_norm_nonzero : forall b0 b1 : Z, (b0 <> 0 \/ b1 <> 0)%Z -> (4 * (b0 * b0) - 3 * (b1 * b1) <> 0)%Z.
Proof. exact L_C45_norm_nonzero. Qed.
Print Assumptions C45_norm_nonzero.

Example C45_ex : wf (T 1 2 (-4)) /\ wf (T 3 (-1) 6) /\
  dadd (T 1 2 (-4)) (T 3 (-1) 6) = Ok (T 3 (-8) 12) /\
  dmul (T 1 2 (-4)) (T 3 (-1) 6) = Ok (T (-3) (-10) 48) /\
  ddiv (T 1 0 1) (T 0 1 1) = Ok (Some (T 0 4 3)) /\ ddiv (T 1 0 1) (T 0 0 5) = Ok None.
Proof. exact E_C45_ex. Qed.

(** C46: canonical triples are equal iff the numbers they denote are equal. *)
Theorem C46_canonical : forall x y, canon x -> canon y -> (val SIN x = val SIN y <-> x = y).
Proof. exact L_C46_canonical. Qed.
Print Assumptions C46_canonical.

Theorem C46_canonical_vectors : forall u v, canonv u -> canonv v -> (vals SIN u = vals SIN v <-> u = v).
Proof. exact L_C46_canonical_vectors. Qed.
Print Assumptions C46_canonical_vectors.

Theorem C46_canonical_unique : forall x, wf x ->
  exists r, canon r /\ val SIN r = val SIN x /\ forall r', canon r' -> val SIN r' = val SIN x -> r' = r.
Proof. exact L_C46_canonical_unique. Qed.
Print Assumptions C46_canonical_unique.

Example C46_ex : canon (T 3 (-8) 12) /\ canon (T 0 4 3) /\ ~ canon (T 2 2 4) /\ ~ canon (T 1 1 (-1)).
Proof. exact E_C46_ex. Qed.
