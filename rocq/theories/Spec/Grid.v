(** Numbers with a common denominator and bounded numerators. *)
From Coq Require Import Reals List ZArith.
From Verif Require Import Base.Res Model.Tau Model.Arr Spec.Value Spec.IcoSpec Spec.DodeSpec.
Import ListNotations.
Local Open Scope Z_scope.

(** Brought to the denominator q > 0, the numerators of x are at most B. *)
Definition on_grid (q B : Z) (x : tau) : Prop :=
  0 < q /\ exists k, k * tc x = q /\ Z.abs (k * ta x) <= B /\ Z.abs (k * tb x) <= B.
(** A vector with n such coordinates; points and objects made of such vectors. *)
Definition gridv (n : nat) (q B : Z) (v : vec) : Prop := length v = n /\ Forall (on_grid q B) v.
Definition grids (n : nat) (q B : Z) (vs : vecs) : Prop := Forall (gridv n q B) vs.
Definition grido (n : nat) (q B : Z) (o : obj4) : Prop := Forall (grids n q B) o.

(** Two computations return the same value, and it satisfies P. *)
Definition same {A} (P : A -> Prop) (m m' : res A) : Prop := exists r, m = Ok r /\ m' = Ok r /\ P r.

(** The largest integer up to which float64 holds every integer. *)
Definition cap : Z := 2^53.

(** The volume of a tetrahedron (the area of a triangle) whose coordinates have numerators up
    to M on the denominator q is told apart from zero by a float64 sign test: the numerators
    are small, or it is zero, or it is not tiny for the size of the coordinates. *)
Definition clear_vol (q M : Z) (t : vecs) : Prop :=
  M <= 5 \/ pvol t = 0%R \/ (IZR (M * M * M) / (10000000000 * IZR (q * q * q)) <= pvol t)%R.
Definition clear_area (q M : Z) (t : vecs) : Prop :=
  M <= 36 \/ parea t = 0%R \/ (IZR (M * M) / (1000000000000 * IZR (q * q)) <= parea t)%R.

(** For the Examples: the vector with x at place i and 0 elsewhere. *)
Definition at_ (i : nat) (x : tau) : vec := map (fun j => if Nat.eqb i j then x else t0) (seq 0 6).
Definition origin6 : vec := [t0; t0; t0; t0; t0; t0].

(** Numbers (a + b tau)/q with |a| + 2|b| at most K, and numbers (a + b sqrt 3)/q with
    |a| + 2|b| at most K (in dode2 the triple holds the coefficient 2b of sqrt 3/2). *)
Definition tau_ring (q K : Z) (x : tau) : Prop :=
  0 < q /\ exists k, k * tc x = q /\ Z.abs (k * ta x) + 2 * Z.abs (k * tb x) <= K.
Definition sqrt3_ring (q K : Z) (x : tau) : Prop :=
  0 < q /\ exists k b, k * tc x = q /\ k * tb x = 2 * b /\ Z.abs (k * ta x) + 2 * Z.abs b <= K.
Definition ring_points (ring : Z -> Z -> tau -> Prop) (n : nat) (q K : Z) (vs : vecs) : Prop :=
  Forall (fun v => length v = n /\ Forall (ring q K) v) vs.
