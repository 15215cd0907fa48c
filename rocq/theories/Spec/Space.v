(** Points of three-dimensional Euclidean space, used to state what the numerical
    geometry functions decide.  Independent of the model. *)
From Coq Require Import Reals List.
From Verif Require Import Model.Tau Model.Arr Spec.Value Spec.RVec Spec.IcoSpec.
Import ListNotations.
Local Open Scope R_scope.

Definition R3 : Type := (R * R * R)%type.
Definition o3 : R3 := (0, 0, 0).
Definition add3 (p q : R3) : R3 := let '(a,b,c) := p in let '(x,y,z) := q in (a+x, b+y, c+z).
Definition sub3 (p q : R3) : R3 := let '(a,b,c) := p in let '(x,y,z) := q in (a-x, b-y, c-z).
Definition scale3 (k : R) (p : R3) : R3 := let '(a,b,c) := p in (k*a, k*b, k*c).
Definition dot3 (p q : R3) : R := let '(a,b,c) := p in let '(x,y,z) := q in a*x + b*y + c*z.
Definition cross3 (p q : R3) : R3 :=
  let '(a,b,c) := p in let '(x,y,z) := q in (b*z - c*y, c*x - a*z, a*y - b*x).
Definition triple3 (u v w : R3) : R := dot3 (cross3 u v) w.
Definition norm3 (p : R3) : R := sqrt (dot3 p p).
Definition dist3 (p q : R3) : R := norm3 (sub3 p q).

(** Affine combination of points. *)
Fixpoint comb (ws : list R) (ps : list R3) : R3 :=
  match ws, ps with
  | w :: ws, p :: ps => add3 (scale3 w p) (comb ws ps)
  | _, _ => o3
  end.
(** ws are barycentric coordinates of p with respect to ps. *)
Definition bary (ws : list R) (ps : list R3) (p : R3) : Prop :=
  length ws = length ps /\ Rsum ws = 1 /\ p = comb ws ps.
(** p lies in the convex hull of ps (the closed segment, triangle, tetrahedron). *)
Definition hull (ps : list R3) (p : R3) : Prop := exists ws, bary ws ps p /\ Forall (Rle 0) ws.

(** The tetrahedron has zero volume. *)
Definition flat4 (a b c d : R3) : Prop := triple3 (sub3 b a) (sub3 c a) (sub3 d a) = 0.
(** Volume of a tetrahedron, area of a triangle. *)
Definition vol3 (a b c d : R3) : R := Rabs (triple3 (sub3 b a) (sub3 c a) (sub3 d a)) / 6.
Definition tri_area (a b c : R3) : R := norm3 (cross3 (sub3 b a) (sub3 c a)) / 2.

(** All points lie in one plane. *)
Definition coplanar3 (ps : list R3) : Prop :=
  exists n d, n <> o3 /\ Forall (fun p => dot3 n p = d) ps.
(** All points lie within h of one plane. *)
Definition near_plane (h : R) (ps : list R3) : Prop :=
  exists n d, norm3 n = 1 /\ Forall (fun p => Rabs (dot3 n p - d) < h) ps.

(** The point of perpendicular space denoted by a 6-d vector, as a triple. *)
Definition pp (v : vec) : R3 :=
  match perp (vals TAU v) with [x; y; z] => (x, y, z) | _ => o3 end.

(** What random.sample(range(n),3) may return: three different indices below n. *)
Definition valid_draw (n : nat) (d : nat * nat * nat) : Prop :=
  let '(i, j, k) := d in (i < n)%nat /\ (j < n)%nat /\ (k < n)%nat /\ i <> j /\ j <> k /\ i <> k.
