(** How accurate np.dot and np.linalg.det must be for the geometric tests to be trusted. *)
From Coq Require Import Reals List ZArith.
From Flocq Require Import Core IEEE754.Binary IEEE754.Bits.
From Verif Require Import Model.Num Spec.Space.
Import ListNotations.
Local Open Scope R_scope.

Definition fin_le (M : R) (x : binary64) : Prop := is_finite 53 1024 x = true /\ Rabs (B2R 53 1024 x) <= M.
Definition val3 (x : binary64 * binary64 * binary64) : R3 :=
  let '(a, b, c) := x in (B2R 53 1024 a, B2R 53 1024 b, B2R 53 1024 c).
Definition abs3 (p : R3) : R3 := let '(a, b, c) := p in (Rabs a, Rabs b, Rabs c).
Definition row_le (M : R) (x : binary64 * binary64 * binary64) : Prop :=
  let '(a, b, c) := x in fin_le M a /\ fin_le M b /\ fin_le M c.

(** np.dot of three numbers of moderate size: a few roundings of the products and sums in
    any order, and no negative scalar product of a vector with itself.  2^-53 is half a
    unit in the last place of 1; 2^-1000 leaves room for underflow. *)
Definition dot_ok (dot : list binary64 -> list binary64 -> binary64) : Prop :=
  forall x y, row_le (bpow radix2 200) x -> row_le (bpow radix2 200) y ->
  let '(a, b, c) := x in let '(a', b', c') := y in
  let d := dot [a; b; c] [a'; b'; c'] in
  is_finite 53 1024 d = true /\
  Rabs (B2R 53 1024 d - dot3 (val3 x) (val3 y)) <= 5 * bpow radix2 (-53) * dot3 (abs3 (val3 x)) (abs3 (val3 y)) + bpow radix2 (-1000) /\
  (x = y -> 0 <= B2R 53 1024 d).
(** np.linalg.det of three rows with entries up to M, an LU factorisation with row
    interchanges whose pivots are multiplied through their logarithms: 1200 roundings. *)
Definition det_ok (det : binary64 * binary64 * binary64 -> binary64 * binary64 * binary64 -> binary64 * binary64 * binary64 -> binary64) : Prop :=
  forall M x y z, 1/1000 <= M <= 1001 -> row_le M x -> row_le M y -> row_le M z ->
  is_finite 53 1024 (det x y z) = true /\
  Rabs (B2R 53 1024 (det x y z) - triple3 (val3 x) (val3 y) (val3 z)) <= 1200 * bpow radix2 (-53) * M ^ 3.
Definition linalg_ok (la : linalg) : Prop := dot_ok la_dot /\ det_ok la_det.
Existing Class linalg_ok.
