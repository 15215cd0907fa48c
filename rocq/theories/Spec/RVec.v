(** Ordinary linear algebra on lists of real numbers, used to state what the
    vector functions should compute.  Independent of the model. *)
From Coq Require Import Reals List ZArith.
From Verif Require Import Model.Tau Spec.Value.
Import ListNotations.
Local Open Scope R_scope.

(** The real vector denoted by a vector of triples. *)
Definition vals (w : R) (v : list tau) : list R := map (val w) v.

(** All components well formed / canonical. *)
Definition wfv (v : list tau) : Prop := Forall wf v.
Definition canonv (v : list tau) : Prop := Forall canon v.

Fixpoint zipWith {A B C} (f : A -> B -> C) (l : list A) (l' : list B) : list C :=
  match l, l' with
  | x :: xs, y :: ys => f x y :: zipWith f xs ys
  | _, _ => []
  end.

Definition vadd : list R -> list R -> list R := zipWith Rplus.
Definition vsub : list R -> list R -> list R := zipWith Rminus.
Definition vscale (k : R) (v : list R) : list R := map (fun x => k * x) v.

Fixpoint Rsum (l : list R) : R :=
  match l with [] => 0 | x :: xs => x + Rsum xs end.

Definition dot (u v : list R) : R := Rsum (zipWith Rmult u v).
Definition norm2 (v : list R) : R := dot v v.

(** Matrix (list of rows) times vector. *)
Definition matvec (m : list (list R)) (v : list R) : list R := map (fun r => dot r v) m.

(** Integer matrix as a real matrix. *)
Definition IZRm (m : list (list Z)) : list (list R) := map (map IZR) m.

(** Cross product of two 3-d vectors. *)
Definition cross (u v : list R) : list R :=
  match u, v with
  | [u1; u2; u3], [v1; v2; v3] =>
      [u2*v3 - u3*v2; u3*v1 - u1*v3; u1*v2 - u2*v1]
  | _, _ => []
  end.

(** Column j of a real matrix and the matrix product (b has n columns). *)
Definition col (m : list (list R)) (j : nat) : list R := map (fun r => nth j r 0) m.
Definition matmulR (n : nat) (a b : list (list R)) : list (list R) :=
  map (fun r => map (fun j => dot r (col b j)) (seq 0 n)) a.

(** m is an orthogonal n x n matrix: it has n rows of length n and preserves
    the scalar product. *)
Definition orthogonal (n : nat) (m : list (list R)) : Prop :=
  length m = n /\ Forall (fun r => length r = n) m /\
  forall u v : list R, length u = n -> length v = n ->
    dot (matvec m u) (matvec m v) = dot u v.
