(** The same scalar functions on the machine: int64 products and sums that wrap,
    np.gcd on int64, int64/int64 division in float64, int() of a float64.
    Executable (Flocq's IEEE-754 binary64). *)
From Coq Require Import ZArith Bool.
From Flocq Require Import IEEE754.BinarySingleNaN IEEE754.Binary IEEE754.Bits.
From Verif Require Import Base.Res Model.Tau.
Local Open Scope Z_scope.
Local Open Scope res_scope.

(** Two's complement wrap-around of int64. *)
Definition wrap64 (z : Z) : Z := (z + 2^63) mod 2^64 - 2^63.
Definition wadd x y := wrap64 (x + y).
Definition wsub x y := wrap64 (x - y).
Definition wmul x y := wrap64 (x * y).
Definition wneg x := wrap64 (- x).

(** np.gcd on int64: the gcd of the absolute values, stored in an int64. *)
Definition wgcd x y := wrap64 (Z.gcd x y).

(** Conversion int64 -> float64 (round to nearest even), float64 division,
    negation, comparison with 0, and int() of a float64. *)
Definition f64 (z : Z) : binary64 := binary_normalize 53 1024 eq_refl eq_refl mode_NE z 0 false.
Definition fdiv (x y : binary64) : binary64 := b64_div mode_NE x y.
Definition fneg (x : binary64) : binary64 := b64_opp x.
Definition fltz (x : binary64) : bool :=
  match Bcompare 53 1024 x (f64 0) with Some Lt => true | _ => false end.
Definition fint (x : binary64) : res Z :=
  match x with
  | B754_nan _ _ _ _ _ => Raise ValueError
  | B754_infinity _ _ _ => Raise OverflowError
  | _ => Ok (Btrunc 53 1024 x)
  end.
(** x / g with x and g of type np.int64 *)
Definition idiv (c g : Z) : binary64 := fdiv (f64 c) (f64 g).

(** ico2/math1.py:32-40, 60-68: the sign test is made on the float. *)
Definition m_reduce (c1 c2 c3 : Z) : res tau :=
  let g := wgcd (wgcd c1 c2) c3 in
  let q1 := idiv c1 g in let q2 := idiv c2 g in let q3 := idiv c3 g in
  if fltz q3 then
    i1 <- fint (fneg q1) ;; i2 <- fint (fneg q2) ;; i3 <- fint (fneg q3) ;; Ok (T i1 i2 i3)
  else
    i1 <- fint q1 ;; i2 <- fint q2 ;; i3 <- fint q3 ;; Ok (T i1 i2 i3).

(** dode2/math1.py:33-41, 61-69: int() first, then the sign test. *)
Definition m_reduce_d (c1 c2 c3 : Z) : res tau :=
  let g := wgcd (wgcd c1 c2) c3 in
  i1 <- fint (idiv c1 g) ;; i2 <- fint (idiv c2 g) ;; i3 <- fint (idiv c3 g) ;;
  if i3 <? 0 then Ok (T (- i1) (- i2) (- i3)) else Ok (T i1 i2 i3).

(** ico2/math1.py:14-40 *)
Definition m_add (a b : tau) : res tau :=
  m_reduce (wadd (wmul (ta a) (tc b)) (wmul (ta b) (tc a)))
           (wadd (wmul (tb a) (tc b)) (wmul (tb b) (tc a)))
           (wmul (tc a) (tc b)).

(** ico2/math1.py:42-68 *)
Definition m_mul (a b : tau) : res tau :=
  m_reduce (wadd (wmul (ta a) (ta b)) (wmul (tb a) (tb b)))
           (wadd (wadd (wmul (ta a) (tb b)) (wmul (tb a) (ta b))) (wmul (tb a) (tb b)))
           (wmul (tc a) (tc b)).

(** ico2/math1.py:70-87 *)
Definition m_sub (a b : tau) : res tau := b' <- m_mul tm1 b ;; m_add a b'.

(** ico2/math1.py:126-136 *)
Definition m_div_reduce (c1 c2 c3 : Z) : res (option tau) :=
  if negb (wgcd (wgcd c1 c2) c3 =? 0)
  then r <- m_reduce c1 c2 c3 ;; Ok (Some r)
  else Ok None.

(** ico2/math1.py:89-136 *)
Definition m_div (a b : tau) : res (option tau) :=
  if (ta b =? 0) && (tb b =? 0) then Ok None
  else if (ta a =? 0) && (tb a =? 0) then Ok (Some t0)
  else if negb (tb b =? 0) then
    if negb (ta b =? 0) then
      m_div_reduce
        (wmul (wsub (wadd (wmul (ta a) (ta b)) (wmul (ta a) (tb b))) (wmul (tb a) (tb b))) (tc b))
        (wmul (wsub (wmul (tb a) (ta b)) (wmul (ta a) (tb b))) (tc b))
        (wmul (wadd (wsub (wmul (ta b) (ta b)) (wmul (tb b) (tb b))) (wmul (ta b) (tb b))) (tc a))
    else
      m_div_reduce (wmul (wadd (wneg (ta a)) (tb a)) (tc b)) (wmul (ta a) (tc b)) (wmul (tb b) (tc a))
  else
    m_div_reduce (wmul (ta a) (tc b)) (wmul (tb a) (tc b)) (wmul (ta b) (tc a)).

(** dode2/math1.py:15-41 *)
Definition md_add (a b : tau) : res tau :=
  m_reduce_d (wadd (wmul (ta a) (tc b)) (wmul (ta b) (tc a)))
             (wadd (wmul (tb a) (tc b)) (wmul (tb b) (tc a)))
             (wmul (tc a) (tc b)).

(** dode2/math1.py:43-69 *)
Definition md_mul (a b : tau) : res tau :=
  m_reduce_d (wadd (wmul (wmul 4 (ta a)) (ta b)) (wmul (wmul 3 (tb a)) (tb b)))
             (wmul 4 (wadd (wmul (ta a) (tb b)) (wmul (tb a) (ta b))))
             (wmul (wmul 4 (tc a)) (tc b)).

(** dode2/math1.py:71-88 *)
Definition md_sub (a b : tau) : res tau := b' <- md_mul tm1 b ;; md_add a b'.

(** dode2/math1.py:130-142 *)
Definition md_div_reduce (c1 c2 c3 : Z) : res (option tau) :=
  if negb (wgcd (wgcd c1 c2) c3 =? 0)
  then r <- m_reduce_d c1 c2 c3 ;; Ok (Some r)
  else Ok None.

(** dode2/math1.py:90-142 *)
Definition md_div (a b : tau) : res (option tau) :=
  if (ta b =? 0) && (tb b =? 0) then Ok None
  else if (ta a =? 0) && (tb a =? 0) then Ok (Some t0)
  else if negb (tb b =? 0) then
    if negb (ta b =? 0) then
      let n := wsub (wmul 4 (wmul (ta b) (ta b))) (wmul 3 (wmul (tb b) (tb b))) in
      if negb (n =? 0) then
        md_div_reduce
          (wmul (tc b) (wsub (wmul (wmul 4 (ta a)) (ta b)) (wmul (wmul 3 (tb a)) (tb b))))
          (wmul (wmul (-4) (tc b)) (wsub (wmul (ta a) (tb b)) (wmul (tb a) (ta b))))
          (wmul (tc a) n)
      else
        md_div_reduce (wmul (wmul 3 (tb a)) (tc b)) (wmul (wmul 4 (ta a)) (tc b)) (wmul (wmul 6 (tc a)) (tb b))
    else
      md_div_reduce (wmul (wmul 3 (tb a)) (tc b)) (wmul (wmul 4 (ta a)) (tc b)) (wmul (wmul 3 (tc a)) (tb b))
  else
    md_div_reduce (wmul (ta a) (tc b)) (wmul (tb a) (tc b)) (wmul (ta b) (tc a)).
