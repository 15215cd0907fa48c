(** dode2/numericalc.py: numerical values of vectors and of their projections. *)
From Coq Require Import List ZArith.
From Verif Require Import Base.Res Model.Tau Model.Arr Model.Num.
Import ListNotations.
Local Open Scope res_scope.

Section DodeNumeric.
Variable N : num.

(** TAU=np.sqrt(3)/2.0, dode2/numericalc.py:10 *)
Definition fsin : F N := fdiv N (fsqrt N (fZ N 3)) (fZ N 2).

(** dode2/numericalc.py:163-175.  Simplification: as in ico2, a zero denominator
    gives whatever [fdiv] gives. *)
Definition dnumeric_value (t : tau) : F N :=
  fdiv N (fadd N (fZ N (ta t)) (fmul N (fZ N (tb t)) fsin)) (fZ N (tc t)).
(** dode2/numericalc.py:177-193 *)
Definition dnumerical_vector (v : vec) : list (F N) := map dnumeric_value v.
(** dode2/numericalc.py:213-227; np.linalg.norm is sqrt(x.dot(x)). *)
Definition dlength_numerical (v : vec) : F N := fsqrt N (fdot N (dnumerical_vector v) (dnumerical_vector v)).
End DodeNumeric.
