(** What is asked of LAPACK's factorisation and of the C library's log and exp. *)
From Coq Require Import Reals List ZArith.
From Flocq Require Import Core IEEE754.Binary IEEE754.Bits.
From Verif Require Import Model.Num Model.Lapack Spec.Space Spec.LinAlg.
Import ListNotations.
Local Open Scope R_scope.

Definition u53 : R := bpow radix2 (-53).
Definition fin (x : binary64) : Prop := is_finite 53 1024 x = true.
Definition v64 (x : binary64) : R := B2R 53 1024 x.
(** One unit in the last place. *)
Definition log_ok (lg : binary64 -> binary64) : Prop :=
  forall x, fin x -> 0 < v64 x -> fin (lg x) /\ Rabs (v64 (lg x) - ln (v64 x)) <= 2 * u53 * Rabs (ln (v64 x)).
(** One unit in the last place, where the result neither overflows nor underflows. *)
Definition exp_ok (ex : binary64 -> binary64) : Prop :=
  forall x, fin x -> v64 x <= 100 -> fin (ex x) /\ Rabs (v64 (ex x) - exp (v64 x)) <= 2 * u53 * exp (v64 x) + bpow radix2 (-1074).

(** The sum of the terms [ts] is [r], up to a few roundings and underflow. *)
Definition near (r : R) (ts : list R) : Prop :=
  Rabs (r - fold_right Rplus 0 ts) <= 5 * u53 * fold_right Rplus 0 (map Rabs ts) + bpow radix2 (-1000).
(** L U is the array with its rows interchanged, up to that, and the entries of L are at most
    one because of the interchanges. *)
Definition getrf_ok (getrf : row -> row -> row -> factors) : Prop :=
  forall M x y z, 1/1000 <= M <= 1001 -> row_le M x -> row_le M y -> row_le M z ->
  let f := getrf x y z in
  (1 <= ipiv1 f <= 3)%nat /\ (2 <= ipiv2 f <= 3)%nat /\
  Forall fin [l21 f; l31 f; l32 f; u11 f; u12 f; u13 f; u22 f; u23 f; u33 f] /\
  Forall (fun l => Rabs (v64 l) <= 1 + 4 * u53) [l21 f; l31 f; l32 f] /\
  let '(a, b, c) := interchange (ipiv1 f) (ipiv2 f) x y z in
  let '(a0, a1, a2) := val3 a in let '(b0, b1, b2) := val3 b in let '(c0, c1, c2) := val3 c in
  near a0 [v64 (u11 f)] /\ near a1 [v64 (u12 f)] /\ near a2 [v64 (u13 f)] /\
  near b0 [v64 (l21 f) * v64 (u11 f)] /\
  near b1 [v64 (l21 f) * v64 (u12 f); v64 (u22 f)] /\
  near b2 [v64 (l21 f) * v64 (u13 f); v64 (u23 f)] /\
  near c0 [v64 (l31 f) * v64 (u11 f)] /\
  near c1 [v64 (l31 f) * v64 (u12 f); v64 (l32 f) * v64 (u22 f)] /\
  near c2 [v64 (l31 f) * v64 (u13 f); v64 (l32 f) * v64 (u23 f); v64 (u33 f)].
