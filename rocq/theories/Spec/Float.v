(** When binary64 arithmetic can be trusted: size of the exact coordinates and of the figure. *)
From Coq Require Import Reals List ZArith.
From Verif Require Import Model.Tau Model.Arr Spec.Value Spec.RVec Spec.IcoSpec Spec.Space Spec.Tetra Spec.Overlap.
Import ListNotations.
Local Open Scope R_scope.

(** (a + b TAU)/c with integers that doubles represent exactly and |a| + 2|b| at most A |c|. *)
Definition coef (A : R) (x : tau) : Prop :=
  let 'T a b c := x in c <> 0%Z /\ (Z.abs a <= 2^53)%Z /\ (Z.abs b <= 2^53)%Z /\ (Z.abs c <= 2^53)%Z /\
    Rabs (IZR a) + 2 * Rabs (IZR b) <= A * Rabs (IZR c).
Definition coefs (A : R) (v : vec) : Prop := length v = 6%nat /\ Forall (coef A) v.
(** No two of the points differ by more than D in a perpendicular coordinate. *)
Definition apart_le (D : R) (p q : R3) : Prop :=
  let '(a, b, c) := sub3 p q in Rabs a <= D /\ Rabs b <= D /\ Rabs c <= D.
Definition spread (D : R) (ps : list R3) : Prop := forall p q, In p ps -> In q ps -> apart_le D p q.
(** Coordinates of moderate size in a figure of moderate extent. *)
Definition tame (A D : R) (vs : vecs) : Prop :=
  1 <= A <= 200000 /\ 1/1000 <= D <= 1000 /\ (A + D) * D ^ 2 <= 2000000 /\ Forall (coefs A) vs /\ spread D (map pp vs).
(** A tetrahedron that is not too flat for its size. *)
Definition plump (A D : R) (t : vecs) : Prop := (A + D) * D ^ 2 <= 500000 * pvol t.
(** Six times the volume a segment and a triangle span; they are exactly parallel or the
    segment is inclined enough. *)
Definition incline (a b c d e : vec) : R := triple3 (sub3 (pp b) (pp a)) (sub3 (pp d) (pp c)) (sub3 (pp e) (pp c)).
Definition sharp (A D : R) (s f : vecs) : Prop := forall a b c d e, s = [a; b] -> f = [c; d; e] ->
  incline a b c d e = 0 \/ (A + D) * D ^ 2 <= 200000 * Rabs (incline a b c d e).
(** Two tetrahedra on which the tests of the package can be evaluated in binary64. *)
Definition fit_pair (A D : R) (t1 t2 : vecs) : Prop :=
  tame A D (t1 ++ t2) /\ plump A D t1 /\ plump A D t2 /\
  (forall s f, edge_of s t1 -> face_of f t2 -> sharp A D s f) /\ (forall s f, edge_of s t2 -> face_of f t1 -> sharp A D s f).
(** No vertex and no crossing point lies just outside, within 2e-6. *)
Definition clear2_pair (t1 t2 : vecs) : Prop :=
  (forall v, In v t1 -> near (2/1000000) (map pp t2) (pp v) -> hull (map pp t2) (pp v)) /\
  (forall a b c d e p, edge_of [a; b] t1 -> face_of [c; d; e] t2 -> incline a b c d e <> 0 ->
     near (2/1000000) (map pp [a; b]) p -> near (2/1000000) (map pp [c; d; e]) p ->
     hull (map pp [a; b]) p /\ hull (map pp [c; d; e]) p).
(** No edge of t1 is nearly, but not exactly, parallel to a face of t2. *)
Definition steep (t1 t2 : vecs) : Prop := forall a b c d e, edge_of [a; b] t1 -> face_of [c; d; e] t2 ->
  incline a b c d e = 0 \/ 12/10000000 <= Rabs (incline a b c d e).
(** For the Examples: v moved along the first basis vector. *)
Definition far_by (z : Z) (v : vec) : vec := match v with T a b c :: r => T (a + z * c) b c :: r | [] => [] end.
