(** The parallel and perpendicular projections of the dodecagonal lattice as
    documented in dode2/math1.py:409-467 (comments at the end of each line), as
    real 3x6 matrices, and plane geometry in perpendicular space. *)
From Coq Require Import Reals List ZArith.
From Verif Require Import Model.Tau Model.Arr Spec.Value Spec.RVec Spec.Shape.
Import ListNotations.
Local Open Scope R_scope.

Definition dpar_rows : list (list R) :=
  [[SIN; 1; 0; -1/2; 0; 0];
   [-1/2; 0; 1; SIN; 0; 0];
   [0; 0; 0; 0; 1; 0]].

Definition dperp_rows : list (list R) :=
  [[-SIN; 1; 0; -1/2; 0; 0];
   [-1/2; 0; 1; -SIN; 0; 0];
   [0; 0; 0; 0; 0; 1]].

Definition dpar (x : list R) : list R := matvec dpar_rows x.
Definition dperp (x : list R) : list R := matvec dperp_rows x.

(** The 2-d parts (physical plane and perpendicular plane). *)
Definition par_plane (x : list R) : list R := firstn 2 (dpar x).
Definition perp_plane (x : list R) : list R := firstn 2 (dperp x).

(** The integer matrix acts on the parallel and on the perpendicular plane
    separately, by an orthogonal 2x2 matrix on each, and leaves the fifth and the
    sixth coordinate alone. *)
Definition diso (op : list (list Z)) : Prop :=
  exists Mpar Mperp, orthogonal 2 Mpar /\ orthogonal 2 Mperp /\
    forall x, length x = 6%nat ->
      par_plane (matvec (IZRm op) x) = matvec Mpar (par_plane x) /\
      perp_plane (matvec (IZRm op) x) = matvec Mperp (perp_plane x) /\
      nth 4 (matvec (IZRm op) x) 0 = nth 4 x 0 /\ nth 5 (matvec (IZRm op) x) 0 = nth 5 x 0.

(** Rotation by some angle times scaling: [[p,q],[-q,p]]. *)
Definition rotscale (p q : R) (v : list R) : list R :=
  match v with [x; y] => [p * x + q * y; - q * x + p * y] | _ => [] end.

(** Area of the triangle with the given three vertices in the plane. *)
Definition triarea (p : list (list R)) : R :=
  match p with
  | [[x0; y0]; [x1; y1]; [x2; y2]] =>
      Rabs ((x1 - x0) * (y2 - y0) - (y1 - y0) * (x2 - x0)) / 2
  | _ => 0
  end.

(** All points lie on one line n.x = d of the plane. *)
Definition collinear2 (pts : list (list R)) : Prop :=
  exists n d, length n = 2%nat /\ n <> [0;0] /\ Forall (fun p => dot n p = d) pts.

(** Area in the perpendicular plane of the triangle with the given 6-d vertices. *)
Definition parea (t : vecs) : R := triarea (map (fun v => perp_plane (vals SIN v)) t).

(** An object made of triangles: three 6-d vertices each. *)
Definition tris (o : obj4) : Prop := Forall (fun t => length t = 3%nat /\ goods 6 t) o.

(** The point of perpendicular space denoted by a 6-d vector. *)
Definition dppoint (v : vec) : list R := dperp (vals SIN v).
