(** What np.linalg.det (called at /repo/src/pyqcstrc/ico2/numericalc.py:561) does with a 3x3
    array of doubles.  These functions are numpy's and LAPACK's and not part of /repo.
    numpy factors the array with LAPACK's dgetrf and multiplies the pivots through their
    logarithms. *)
From Coq Require Import ZArith List Bool Arith.
From Flocq Require Import IEEE754.BinarySingleNaN IEEE754.Binary IEEE754.Bits.
From Verif Require Import Model.Num.

Definition row : Type := (binary64 * binary64 * binary64)%type.
(** The factors L (ones on the diagonal) and U of the array after its rows were interchanged:
    at step i, row i with row ipiv i, counting from 1. *)
Record factors := mkFactors {
  ipiv1 : nat; ipiv2 : nat;
  l21 : binary64; l31 : binary64; l32 : binary64;
  u11 : binary64; u12 : binary64; u13 : binary64; u22 : binary64; u23 : binary64; u33 : binary64 }.
Definition interchange (p1 p2 : nat) (x y z : row) : row * row * row :=
  let '(a, b, c) := match p1 with 2 => (y, x, z) | 3 => (z, y, x) | _ => (x, y, z) end in
  match p2 with 3 => (a, c, b) | _ => (a, b, c) end.

Definition is_zero (x : binary64) : bool := match x with B754_zero _ _ _ => true | _ => false end.
(** numpy/linalg/umath_linalg: a zero pivot gives 0; otherwise the sign is counted from the
    interchanges and the pivots, and the product of their sizes is the exponential [ex] of the
    sum of their logarithms [lg] (the C library's exp and log). *)
Definition det_of (lg ex : binary64 -> binary64) (f : factors) : binary64 :=
  if is_zero (u11 f) || is_zero (u22 f) || is_zero (u33 f) then B64 0
  else
    let odd := xorb (negb (ipiv1 f =? 1)) (negb (ipiv2 f =? 2)) in
    let neg x := b64_lt x (B64 0) in
    let s := xorb (xorb (xorb odd (neg (u11 f))) (neg (u22 f))) (neg (u33 f)) in
    let t := b64_plus mode_NE (b64_plus mode_NE (lg (b64_abs (u11 f))) (lg (b64_abs (u22 f)))) (lg (b64_abs (u33 f))) in
    b64_mult mode_NE (if s then B64 (-1) else B64 1) (ex t).
Definition det_numpy (lg ex : binary64 -> binary64) (getrf : row -> row -> row -> factors) (x y z : row) : binary64 :=
  det_of lg ex (getrf x y z).

(** Elimination with partial pivoting, the first largest entry of the column being the pivot.
    [recip]: multiply by the reciprocal of the pivot unless it is subnormal (as LAPACK's
    dgetf2 and dgetrf2 do), or divide.  [fused]: with or without fused multiply-adds.
    [late]: the last entry is updated once, by a scalar product (left-looking), or twice. *)
Section Getrf.
Variables recip fused late : bool.
Definition tiniest : binary64 := b64_div mode_NE (B64 1) (B64 (2 ^ 1022)).
Definition quot (x p : binary64) : binary64 :=
  if is_zero p then x
  else if recip && b64_le tiniest (b64_abs p) then b64_mult mode_NE x (b64_div mode_NE (B64 1) p)
  else b64_div mode_NE x p.
Definition upd (y l q : binary64) : binary64 :=
  if fused then b64_fma mode_NE (b64_opp l) q y else b64_minus mode_NE y (b64_mult mode_NE l q).
Definition upd2 (y m p n q : binary64) : binary64 :=
  if late then
    b64_minus mode_NE y (if fused then b64_fma mode_NE n q (b64_mult mode_NE m p)
                         else b64_plus mode_NE (b64_mult mode_NE m p) (b64_mult mode_NE n q))
  else upd (upd y m p) n q.
Definition bigger (x y : binary64) : bool := b64_lt (b64_abs y) (b64_abs x).
Definition getrf (x y z : row) : factors :=
  let '(x0, _, _) := x in let '(y0, _, _) := y in let '(z0, _, _) := z in
  let p1 := if bigger y0 x0 then (if bigger z0 y0 then 3 else 2) else (if bigger z0 x0 then 3 else 1) in
  let '((a0, a1, a2), (b0, b1, b2), (c0, c1, c2)) := interchange p1 2 x y z in
  let l := quot b0 a0 in let m := quot c0 a0 in
  let p := upd b1 l a1 in let q := upd c1 m a1 in
  if bigger q p then
    let n := quot p q in let s := upd c2 m a2 in
    mkFactors p1 3 m l n a0 a1 a2 q s (upd2 b2 l a2 n s)
  else
    let n := quot q p in let s := upd b2 l a2 in
    mkFactors p1 2 l m n a0 a1 a2 p s (upd2 c2 m a2 n s).
End Getrf.
