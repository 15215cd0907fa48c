(** Elementary solid geometry over the reals. *)
From Coq Require Import Reals List.
From Verif Require Import Spec.RVec.
Import ListNotations.
Local Open Scope R_scope.

(** Determinant of three 3-d vectors (triple product). *)
Definition det3 (u v w : list R) : R := dot (cross u v) w.

(** Volume of the tetrahedron with the given four vertices. *)
Definition tetvol (p : list (list R)) : R :=
  match p with
  | [p0; p1; p2; p3] => Rabs (det3 (vsub p1 p0) (vsub p2 p0) (vsub p3 p0)) / 6
  | _ => 0
  end.

(** All points lie in one plane n.x = d. *)
Definition coplanar (pts : list (list R)) : Prop :=
  exists n d, length n = 3%nat /\ n <> [0;0;0] /\ Forall (fun p => dot n p = d) pts.
