(** The test [numeric_value(v) < 0].  numeric_value (ico2/numericalc.py:163-176,
    dode2/numericalc.py) computes (t[0]+t[1]*w)/t[2] in floating point; only the sign of the result is used by the modelled
    code.  Simplification: the sign is decided exactly (integer arithmetic)
    instead of through the rounded value. *)
From Coq Require Import ZArith Bool.
From Verif Require Import Model.Tau.
Local Open Scope Z_scope.

(** x + y*sqrt d < 0 and > 0 *)
Definition neg_sqrt (d x y : Z) : bool :=
  ((x <? 0) && (y <=? 0)) || ((x <=? 0) && (y <? 0)) ||
  ((x <? 0) && (0 <? y) && (d*y*y <? x*x)) ||
  ((0 <? x) && (y <? 0) && (x*x <? d*y*y)).
Definition pos_sqrt (d x y : Z) : bool := neg_sqrt d (-x) (-y).

(** (a+b*TAU)/c < 0 where 2*(a+b*TAU) = (2a+b) + b*sqrt 5; division by a zero
    int64 gives an infinity with the sign of the numerator (or nan). *)
Definition neg_tau (t : tau) : bool :=
  if tc t <? 0 then pos_sqrt 5 (2 * ta t + tb t) (tb t)
  else neg_sqrt 5 (2 * ta t + tb t) (tb t).

(** (a+b*sqrt(3)/2)/c < 0 where 2*(a+b*sqrt 3/2) = 2a + b*sqrt 3 *)
Definition neg_sin (t : tau) : bool :=
  if tc t <? 0 then pos_sqrt 3 (2 * ta t) (tb t)
  else neg_sqrt 3 (2 * ta t) (tb t).
