(** The parallel and perpendicular projections of the icosahedral lattice as
    documented in ico2/math1.py:403-458 (comments at the end of each line), as
    real 3x6 matrices. *)
From Coq Require Import Reals List ZArith.
From Verif Require Import Model.Tau Model.Arr Spec.Value Spec.RVec Spec.Geometry.
Import ListNotations.
Local Open Scope R_scope.

Definition par_rows : list (list R) :=
  [[1; TAU; TAU; 0; -1; 0];
   [TAU; 0; 0; 1; TAU; 1];
   [0; 1; -1; -TAU; 0; TAU]].

Definition perp_rows : list (list R) :=
  [[TAU; -1; -1; 0; -TAU; 0];
   [-1; 0; 0; TAU; -1; TAU];
   [0; TAU; -TAU; 1; 0; -1]].

Definition par (x : list R) : list R := matvec par_rows x.
Definition perp (x : list R) : list R := matvec perp_rows x.

(** A real number is rational. *)
Definition rational (x : R) : Prop := exists p q : Z, q <> 0%Z /\ x = IZR p / IZR q.

(** The integer matrix acts on parallel and on perpendicular space separately,
    by an orthogonal matrix on each. *)
Definition iso (op : list (list Z)) : Prop :=
  exists Mpar Mperp, orthogonal 3 Mpar /\ orthogonal 3 Mperp /\
    forall x, length x = 6%nat ->
      par (matvec (IZRm op) x) = matvec Mpar (par x) /\
      perp (matvec (IZRm op) x) = matvec Mperp (perp x).

(** Volume in perpendicular space of the tetrahedron with the given 6-d vertices. *)
Definition pvol (t : vecs) : R := tetvol (map (fun v => perp (vals TAU v)) t).
