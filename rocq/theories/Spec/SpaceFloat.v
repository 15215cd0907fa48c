(** When the pieces of an intersection computed in binary64 can be trusted. *)
From Coq Require Import Reals List ZArith.
From Verif Require Import Base.Res Model.Tau Model.Arr Model.Num Model.IcoMath1 Model.IcoNumeric Model.IcoIntersect
  Spec.Value Spec.RVec Spec.Shape Spec.IcoSpec Spec.Sets Spec.Space Spec.Tetra Spec.Overlap Spec.Float.
Import ListNotations.
Local Open Scope R_scope.

(** The points of space handed to the triangulation, in the arithmetic N. *)
Definition space_points (N : num) (ps : vecs) : res (list (list (F N))) :=
  mapM (fun v => bind (projection3 v) (fun w => Ok (numerical_vector N w))) ps.
(** Triangulating rounded points covers the hull of the exact ones, unless the exact points
    lie in a plane. *)
Definition triangulates3 (N : num) (delaunay : list (list (F N)) -> option (list (nat * nat * nat * nat))) : Prop :=
  forall ps q l, goods 6 ps -> space_points N ps = Ok q -> delaunay q = Some l -> covers (map ppoint ps) l \/ coplanar3 (map pp ps).
(** The vertices found inside the other tetrahedron and the crossing points, both in the
    arithmetic N, are of moderate size. *)
Definition tame_points (N : num) (A D : R) (t1 t2 : vecs) : Prop := forall ps,
  Forall (admissible (fun v t => inside_outside_tetrahedron_tau N v t = Ok true)
                     (fun s f v => intersection_segment_surface N s f = Ok (Some v)) t1 t2) ps -> tame A D ps.
(** How thick a figure of that size may be and still be taken for flat. *)
Definition flatness (A D : R) : R := 13/100000 + (A + D) * D ^ 2 / 2000000.
(** The common part of two tetrahedra lies within h of one plane. *)
Definition thin_by (h : R) (t1 t2 : vecs) : Prop :=
  exists n d, norm3 n = 1 /\ forall q, hull (map pp t1) q -> hull (map pp t2) q -> Rabs (dot3 n q - d) < h.
(** The exact perpendicular components of u - v are of moderate size. *)
Definition gap_ok (A : R) (u v : vec) : Prop := forall d r, sub_vectors u v = Ok d -> projection3 d = Ok r -> Forall (coef A) r.
(** The differences that enter the spheres about c1 and c2 are of moderate size. *)
Definition fit_balls (A : R) (t : vecs) (c1 : vec) (o : list vecs) (c2 : vec) : Prop :=
  1 <= A <= 1000000 /\ (forall v, In v t -> gap_ok A v c1) /\ (forall v, In v (concat o) -> gap_ok A v c2) /\ gap_ok A c1 c2.
(** p lies deeper than h in the sphere about c through some of the points vs. *)
Definition deep_by (h : R) (vs : vecs) (c : vec) (p : R3) : Prop := exists v, In v vs /\ dist3 p (pp c) + h <= dist3 (pp v) (pp c).
