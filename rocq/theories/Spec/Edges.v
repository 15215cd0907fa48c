(** The edges of a solid in perpendicular space: borders of its flat faces. *)
From Coq Require Import Reals List.
From Coq Require Import ZArith.
From Verif Require Import Model.Tau Model.Arr Spec.Value Spec.RVec Spec.Shape Spec.IcoSpec Spec.Sets Spec.Space Spec.Tetra Spec.Surface Spec.Region Spec.Solid.
Import ListNotations.
Local Open Scope R_scope.

(** Boundary relative to the plane n.x = d: the points of the plane that have points of S and
    points of the plane outside S arbitrarily close to them. *)
Definition boundary_in (n : R3) (d : R) (S : R3 -> Prop) (x : R3) : Prop :=
  dot3 n x = d /\ forall eps, 0 < eps ->
    (exists y, dot3 n y = d /\ S y /\ dist3 y x < eps) /\ (exists y, dot3 n y = d /\ ~ S y /\ dist3 y x < eps).

(** The part of the surface fs made of the triangles that lie in the plane n.x = d. *)
Definition flat_part (fs : obj4) (n : R3) (d : R) (x : R3) : Prop :=
  exists f, In f fs /\ Forall (fun v => dot3 n (pp v) = d) f /\ hull (map pp f) x.
(** x lies on the border of such a part, for some plane. *)
Definition on_border (fs : obj4) (x : R3) : Prop :=
  exists n d, n <> o3 /\ boundary_in n d (flat_part fs n d) x.

(** The union of a set of segments. *)
Definition drawn3 (es : obj4) (x : R3) : Prop := exists e, In e es /\ hull (map pp e) x.

(** Around x the boundary of S is a piece of a plane. *)
Definition flat_at (S : R3 -> Prop) (x : R3) : Prop :=
  exists n eps, n <> o3 /\ 0 < eps /\ forall y, dist3 y x < eps -> (boundary3 S y <-> dot3 n y = dot3 n x).

(** No vertex is close to, but not on, the segment between two others. *)
Definition sharp3 (vs : vecs) : Prop :=
  forall p q r, In p vs -> In q vs -> In r vs ->
    hull [pp q; pp r] (pp p) \/ forall y, hull [pp q; pp r] y -> 3/2000 <= dist3 (pp p) y.
(** Any four of the vertices lie exactly in one plane or clearly not. *)
Definition clear_planes (vs : vecs) : Prop :=
  forall a b c d, In a vs -> In b vs -> In c vs -> In d vs ->
    flat4 (pp a) (pp b) (pp c) (pp d) \/ 1/10000000000 <= Rabs (triple3 (sub3 (pp b) (pp a)) (sub3 (pp c) (pp a)) (sub3 (pp d) (pp a))).
(** The three points span a triangle that is not too small: some component of the cross
    product of two of its sides is at least 1e-6. *)
Definition spread (a b c : R3) : Prop :=
  let '(x, y, z) := cross3 (sub3 b a) (sub3 c a) in 1/1000000 <= Rabs x \/ 1/1000000 <= Rabs y \/ 1/1000000 <= Rabs z.

(** For the Examples: two tetrahedra that together make up one, glued along a face that
    ends in the middle of an edge. *)
From Verif Require Import Spec.Convex.
Definition cut : obj4 :=
  [[at3 1 1 0 0; at3 1 0 1 0; at3 1 0 0 1; at3 1 0 0 0]; [at3 1 1 0 0; at3 1 0 1 0; at3 1 0 0 1; at3 1 2 0 0]].
