(** Scalar arithmetic of dode2/math1.py (w = sqrt(3)/2, "SIN-style"). *)
From Coq Require Import ZArith Bool.
From Verif Require Import Base.Res Model.Tau Model.IcoScalar.
Local Open Scope Z_scope.

(** dode2/math1.py:15-41.  Same text as ico2 except that int() is applied before
    the sign test. *)
Definition dadd (a b : tau) : res tau :=
  reduce (ta a * tc b + ta b * tc a)
         (tb a * tc b + tb b * tc a)
         (tc a * tc b).

(** dode2/math1.py:43-69 *)
Definition dmul (a b : tau) : res tau :=
  reduce (4 * ta a * ta b + 3 * tb a * tb b)
         (4 * (ta a * tb b + tb a * ta b))
         (4 * tc a * tc b).

(** dode2/math1.py:71-88 *)
Definition dsub (a b : tau) : res tau :=
  bind (dmul tm1 b) (fun b' => dadd a b').

(** dode2/math1.py:90-142; the reduction at the end (130-142) is that of ico2. *)
Definition ddiv (a b : tau) : res (option tau) :=
  if (ta b =? 0) && (tb b =? 0) then Ok None
  else if (ta a =? 0) && (tb a =? 0) then Ok (Some t0)
  else if negb (tb b =? 0) then
    if negb (ta b =? 0) then
      if negb (4 * (ta b * ta b) - 3 * (tb b * tb b) =? 0) then
        div_reduce (tc b * (4 * ta a * ta b - 3 * tb a * tb b))
                   (-4 * tc b * (ta a * tb b - tb a * ta b))
                   (tc a * (4 * (ta b * ta b) - 3 * (tb b * tb b)))
      else
        div_reduce (3 * tb a * tc b) (4 * ta a * tc b) (6 * tc a * tb b)
    else
      div_reduce (3 * tb a * tc b) (4 * ta a * tc b) (3 * tc a * tb b)
  else
    div_reduce (ta a * tc b) (tb a * tc b) (ta b * tc a).
