(** Arithmetic mean of a list of n-dimensional real vectors. *)
From Coq Require Import Reals List.
From Verif Require Import Spec.RVec.
Import ListNotations.
Local Open Scope R_scope.

Definition zerov (n : nat) : list R := repeat 0 n.

Fixpoint vsum (n : nat) (l : list (list R)) : list R :=
  match l with
  | [] => zerov n
  | v :: vs => vadd v (vsum n vs)
  end.

Definition mean (n : nat) (l : list (list R)) : list R :=
  vscale (/ INR (length l)) (vsum n l).
