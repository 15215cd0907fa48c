(** The arithmetic used by the numerical code.  The numerical functions are
    written once, over any record [num]; [Rnum] interprets them in exact real
    arithmetic (no rounding), [Bmath la] in IEEE-754 binary64 (Flocq, round to nearest
    even), which is what Python and numpy compute with.  How numpy's np.dot and
    np.linalg.det round depends on the libraries it is built with (BLAS, LAPACK), so
    these two are a parameter [la]; [Bnum] is the executable instance that adds from left
    to right and expands determinants along the first row. *)
From Coq Require Import Reals ZArith List.
From Flocq Require Import IEEE754.BinarySingleNaN IEEE754.Binary IEEE754.Bits.
From Verif Require Import Base.Res.
Import ListNotations.
Local Open Scope res_scope.

Record num := mkNum {
  F : Type;
  fadd : F -> F -> F; fsub : F -> F -> F; fmul : F -> F -> F; fdiv : F -> F -> F;
  fneg : F -> F; fabs : F -> F; fsqrt : F -> F;
  flt : F -> F -> bool; fle : F -> F -> bool;
  fZ : Z -> F;
  fdot : list F -> list F -> F;   (* np.dot of two vectors *)
  fdet : F * F * F -> F * F * F -> F * F * F -> F   (* np.linalg.det of three rows *) }.

(** The textbook scalar product and 3x3 determinant: sum from left to right, expansion
    along the first row. *)
Section Textbook.
Variables (A : Type) (add sub mul : A -> A -> A) (zero : A).
Fixpoint dot_from (s : A) (l m : list A) : A :=
  match l, m with x :: l, y :: m => dot_from (add s (mul x y)) l m | _, _ => s end.
Definition dot_left (l m : list A) : A :=
  match l, m with x :: l, y :: m => dot_from (mul x y) l m | _, _ => zero end.
Definition det_rows (r0 r1 r2 : A * A * A) : A :=
  let '(a0, a1, a2) := r0 in let '(b0, b1, b2) := r1 in let '(c0, c1, c2) := r2 in
  dot_left [a0; a1; a2] [sub (mul b1 c2) (mul b2 c1); sub (mul b2 c0) (mul b0 c2); sub (mul b0 c1) (mul b1 c0)].
End Textbook.

Definition Rltb (x y : R) : bool := if Rlt_dec x y then true else false.
Definition Rleb (x y : R) : bool := if Rle_dec x y then true else false.
Definition Rnum : num :=
  mkNum R Rplus Rminus Rmult Rdiv Ropp Rabs sqrt Rltb Rleb IZR
    (dot_left R Rplus Rmult R0) (det_rows R Rplus Rminus Rmult R0).

Definition B64 (z : Z) : binary64 := binary_normalize 53 1024 eq_refl eq_refl mode_NE z 0 false.
Definition b64_lt (x y : binary64) : bool :=
  match Bcompare 53 1024 x y with Some Lt => true | _ => false end.
Definition b64_le (x y : binary64) : bool :=
  match Bcompare 53 1024 x y with Some Lt | Some Eq => true | _ => false end.
(** np.dot of two vectors of doubles and np.linalg.det of three rows of doubles. *)
Class linalg := mkLinalg {
  la_dot : list binary64 -> list binary64 -> binary64;
  la_det : binary64 * binary64 * binary64 -> binary64 * binary64 * binary64 -> binary64 * binary64 * binary64 -> binary64 }.
Definition Bmath {la : linalg} : num :=
  mkNum binary64 (b64_plus mode_NE) (b64_minus mode_NE) (b64_mult mode_NE) (b64_div mode_NE)
    b64_opp b64_abs (b64_sqrt mode_NE) b64_lt b64_le B64 la_dot la_det.
Definition textbook : linalg := mkLinalg
  (dot_left binary64 (b64_plus mode_NE) (b64_mult mode_NE) (B64 0))
  (det_rows binary64 (b64_plus mode_NE) (b64_minus mode_NE) (b64_mult mode_NE) (B64 0)).
Notation Bnum := (@Bmath textbook).

Section Num.
Variable N : num.

(** Literals.  p and q are exactly representable, so the correctly rounded quotient
    is the double the decimal literal p/q denotes. *)
Definition flit (p q : Z) : F N := fdiv N (fZ N p) (fZ N q).
Definition EPS : F N := flit 1 1000000.          (* 1e-6, ico2/numericalc.py:11 *)
Definition f1e10 : F N := flit 1 10000000000.    (* 1e-10 *)
Definition f1e8 : F N := flit 1 100000000.       (* 1e-8, numpy's allclose atol *)
Definition f1e5 : F N := flit 1 100000.          (* 1e-5, numpy's allclose rtol *)
(** TAU=(1+np.sqrt(5))/2.0, ico2/numericalc.py:10 *)
Definition ftau : F N := fdiv N (fadd N (fZ N 1) (fsqrt N (fZ N 5))) (fZ N 2).

(** Arrays of shape (3,). *)
Definition pt : Type := (F N * F N * F N)%type.
Definition psub (p q : pt) : pt :=
  let '(a, b, c) := p in let '(a', b', c') := q in (fsub N a a', fsub N b b', fsub N c c').
(** np.cross of two 3-vectors. *)
Definition pcross (p q : pt) : pt :=
  let '(a0, a1, a2) := p in let '(b0, b1, b2) := q in
  (fsub N (fmul N a1 b2) (fmul N a2 b1), fsub N (fmul N a2 b0) (fmul N a0 b2),
   fsub N (fmul N a0 b1) (fmul N a1 b0)).
(** np.dot of two 3-vectors. *)
Definition pdot (p q : pt) : F N :=
  let '(a0, a1, a2) := p in let '(b0, b1, b2) := q in fdot N [a0; a1; a2] [b0; b1; b2].
(** np.linalg.norm of a 3-vector: sqrt of the scalar product with itself. *)
Definition pnorm (p : pt) : F N := fsqrt N (pdot p p).
(** np.linalg.det of a 3x3 array. *)
Definition pdet (r0 r1 r2 : pt) : F N := fdet N r0 r1 r2.
End Num.
