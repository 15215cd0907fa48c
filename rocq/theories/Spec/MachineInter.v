(** Pairs of tetrahedra whose common corners have small coordinates. *)
From Coq Require Import Reals List ZArith.
From Verif Require Import Base.Res Model.Tau Model.Arr Model.Num Model.IcoIntersect Spec.Value Spec.IcoSpec Spec.Grid.
Import ListNotations.
Local Open Scope Z_scope.

(** These points share a denominator q <= 250 with numerators up to M, M q <= 3000 (less if
    there are many tetrahedra), and no four of them span a tiny tetrahedron. *)
Definition neat_points (n : Z) (pts : vecs) : Prop := exists q M, 0 < q <= 250 /\ 0 <= M /\ M * q <= 3000 /\ n * (M * q)^3 <= 16000000000 /\
  grids 6 q M pts /\ forall t, incl t pts -> length t = 4%nat -> clear_vol q M t.
(** The points of which the intersection of t1 and t2 is made are so. *)
Definition neat_pair (N : num) (n : Z) (t1 t2 : vecs) : Prop := forall pts, collect N t1 t2 = Ok pts -> neat_points n pts.
(** A triangulation with at most n tetrahedra for as many points as two tetrahedra can give:
    24 edges against faces each way and 8 vertices. *)
Definition at_most {A} (n : Z) (delaunay : list A -> option (list simplex)) : Prop :=
  1 <= n /\ forall ps l, (length ps <= 56)%nat -> delaunay ps = Some l -> Z.of_nat (length l) <= n.
(** Two objects of tetrahedra with coordinates (a + b tau)/q, |a| + 2|b| <= K, with the bounds
    of C103; the second has between 1 and 20000 tetrahedra. *)
Definition small_objects (q K : Z) (o1 o2 : obj4) : Prop :=
  0 < q /\ 1 <= K /\ K * K * q <= 437 /\ K^7 * q <= 16758000 /\ o2 <> [] /\ Z.of_nat (length o2) <= 20000 /\
  Forall (fun t => length t = 4%nat /\ ring_points tau_ring 6 q K t) (o1 ++ o2).
