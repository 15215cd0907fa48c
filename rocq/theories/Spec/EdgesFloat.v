(** Configurations that binary64 can judge: planes and samples. *)
From Coq Require Import Reals List.
From Verif Require Import Base.Res Model.Tau Model.Arr Spec.Value Spec.Space Spec.Tetra.
Local Open Scope R_scope.

(** Any four of the vertices lie exactly in one plane or span (six times) a volume of at
    least 1e-9. *)
Definition very_clear_planes (vs : vecs) : Prop :=
  forall a b c d, In a vs -> In b vs -> In c vs -> In d vs ->
    flat4 (pp a) (pp b) (pp c) (pp d) \/ 1/1000000000 <= Rabs (triple3 (sub3 (pp b) (pp a)) (sub3 (pp c) (pp a)) (sub3 (pp d) (pp a))).
(** Some component of the cross product of two sides is at least 2e-6. *)
Definition wide (a b c : R3) : Prop :=
  let '(x, y, z) := cross3 (sub3 b a) (sub3 c a) in 2/1000000 <= Rabs x \/ 2/1000000 <= Rabs y \/ 2/1000000 <= Rabs z.
