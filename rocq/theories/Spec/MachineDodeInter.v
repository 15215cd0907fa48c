(** Pairs of triangles whose common corners have small coordinates. *)
From Coq Require Import Reals List ZArith.
From Verif Require Import Base.Res Model.Tau Model.Arr Model.Num Model.DodeIntersect Spec.Value Spec.DodeSpec Spec.Grid.
Import ListNotations.
Local Open Scope Z_scope.

(** These points share a denominator q <= 1000 with numerators up to M, M q <= 100000, and no
    three of them span a tiny triangle. *)
Definition dneat_points (pts : vecs) : Prop := exists q M, 0 < q <= 1000 /\ 0 <= M /\ M * q <= 100000 /\
  grids 6 q M pts /\ forall t, incl t pts -> length t = 3%nat -> clear_area q M t.
(** The points of which the intersection of t1 and t2 is made are so. *)
Definition dneat_corners (N : num) (t1 t2 : vecs) : Prop := forall n pts, dcollect N t1 t2 = Ok (n, pts) -> dneat_points pts.
(** Two objects of triangles with coordinates (a + b sqrt 3)/q, |a| + 2|b| <= K, with the bounds
    of C104; the second has between 1 and 100000 triangles. *)
Definition small_dobjects (q K : Z) (o1 o2 : obj4) : Prop :=
  0 < q /\ 1 <= K /\ K * K * q <= 11 /\ o2 <> [] /\ Z.of_nat (length o2) <= 100000 /\
  Forall (fun t => length t = 3%nat /\ ring_points sqrt3_ring 6 q K t) (o1 ++ o2).
