(** TAU-style / SIN-style numbers: integer triples [a,b,c], and the reduction
    to lowest terms shared by all scalar functions of ico2 and dode2. *)
From Coq Require Import ZArith Bool.
From Verif Require Import Base.Res.
Local Open Scope Z_scope.

(** A numpy array of three int64, [a,b,c], standing for (a + b*w)/c where w is
    tau in ico2 and sqrt(3)/2 in dode2 (ico2/math1.py:12, dode2/math1.py:12).
    Simplification: components are unbounded integers here; see Machine.v for
    the int64/float64 model. *)
Record tau : Set := T { ta : Z; tb : Z; tc : Z }.

Definition tau_eqb (x y : tau) : bool :=
  (ta x =? ta y) && (tb x =? tb y) && (tc x =? tc y).

(** ico2/math1.py:32-40 (add), 60-68 (mul); dode2/math1.py: same text.
    x=np.array([c1,c2,c3]); g=np.gcd.reduce(x); c_i=c_i/g; negate if c3<0.
    With g=0 the quotients are nan and int(nan) raises ValueError.
    Simplification: c_i/g followed by int() is exact integer division (g divides
    each c_i); float64 rounding of the quotient is treated in Machine.v. *)
Definition reduce (c1 c2 c3 : Z) : res tau :=
  let g := Z.gcd (Z.gcd c1 c2) c3 in
  if g =? 0 then Raise ValueError
  else
    let c1 := c1 / g in
    let c2 := c2 / g in
    let c3 := c3 / g in
    if c3 <? 0 then Ok (T (- c1) (- c2) (- c3))
    else Ok (T c1 c2 c3).

(** The constants of the source. *)
Definition t0 : tau := T 0 0 1.
Definition t1 : tau := T 1 0 1.
Definition tm1 : tau := T (-1) 0 1.
