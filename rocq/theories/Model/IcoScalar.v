(** Scalar arithmetic of ico2/math1.py (golden ratio). *)
From Coq Require Import ZArith Bool.
From Verif Require Import Base.Res Model.Tau.
Local Open Scope Z_scope.

(** ico2/math1.py:14-40 *)
Definition add (a b : tau) : res tau :=
  reduce (ta a * tc b + ta b * tc a)
         (tb a * tc b + tb b * tc a)
         (tc a * tc b).

(** ico2/math1.py:42-68 *)
Definition mul (a b : tau) : res tau :=
  reduce (ta a * ta b + tb a * tb b)
         (ta a * tb b + tb a * ta b + tb a * tb b)
         (tc a * tc b).

(** ico2/math1.py:70-87: b=mul([-1,0,1],b); return add(a,b) *)
Definition sub (a b : tau) : res tau :=
  bind (mul tm1 b) (fun b' => add a b').

(** ico2/math1.py:126-136: as [reduce], but g=0 is tested and returns None. *)
Definition div_reduce (c1 c2 c3 : Z) : res (option tau) :=
  let g := Z.gcd (Z.gcd c1 c2) c3 in
  if negb (g =? 0) then
    let c1 := c1 / g in
    let c2 := c2 / g in
    let c3 := c3 / g in
    if c3 <? 0 then Ok (Some (T (- c1) (- c2) (- c3)))
    else Ok (Some (T c1 c2 c3))
  else Ok None.

(** ico2/math1.py:89-136 *)
Definition div (a b : tau) : res (option tau) :=
  if (ta b =? 0) && (tb b =? 0) then Ok None
  else if (ta a =? 0) && (tb a =? 0) then Ok (Some t0)
  else if negb (tb b =? 0) then
    if negb (ta b =? 0) then
      div_reduce ((ta a * ta b + ta a * tb b - tb a * tb b) * tc b)
                 ((tb a * ta b - ta a * tb b) * tc b)
                 ((ta b * ta b - tb b * tb b + ta b * tb b) * tc a)
    else
      div_reduce ((- ta a + tb a) * tc b) (ta a * tc b) (tb b * tc a)
  else
    div_reduce (ta a * tc b) (tb a * tc b) (ta b * tc a).
