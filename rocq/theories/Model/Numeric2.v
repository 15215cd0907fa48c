(** The remaining functions of ico2/numericalc.py and dode2/numericalc.py, over any [num]. *)
From Coq Require Import List ZArith Bool Arith.
From Verif Require Import Base.Res Model.Tau Model.Arr Model.Num Model.IcoNumeric Model.DodeNumeric Model.DodeIntersect.
Import ListNotations.
Local Open Scope res_scope.

Section Numeric.
Variable N : num.

(** The first three entries of row i of an array of TAU-style coordinates, as floats;
    [value] is numeric_value.  The difference of two rows is taken entry by entry as in the code. *)
Definition row3 (value : tau -> F N) (a : vecs) (i : nat) : res (pt N) :=
  r <- get a i ;; x <- get r 0 ;; y <- get r 1 ;; z <- get r 2 ;; Ok (value x, value y, value z).
(** ico2/numericalc.py:369-394 *)
Definition triangle_area_ (value : tau -> F N) (a : vecs) : res (F N) :=
  b <- row3 value a 1 ;; o <- row3 value a 0 ;; c <- row3 value a 2 ;; Ok (area3 N o b c).
Definition triangle_area (a : vecs) : res (F N) := triangle_area_ (numeric_value N) a.
(** dode2/numericalc.py:435-460 *)
Definition dtriangle_area (a : vecs) : res (F N) := triangle_area_ (dnumeric_value N) a.

(** dode2/numericalc.py:31-82 is the code of ico2 ([coplanar_check_numeric]);
    dode2/numericalc.py:13-29 *)
Definition dcoplanar_check_numeric_tau (draws : list (nat * nat * nat)) (vs : vecs) : res (option bool) :=
  p <- dinternals N vs ;; coplanar_check_numeric N draws p.
(** dode2/numericalc.py:84-120: the code of ico2 with the projection of dode2 *)
Definition dpoint_on_segment (point : vec) (seg : vecs) : res bool :=
  p <- dinternal N point ;; l <- dinternals N seg ;;
  a <- get l 0 ;; b <- get l 1 ;; Ok (on_segment N p a b).
(** dode2/numericalc.py:122-161: the code of ico2 with the projection of dode2 *)
Definition don_out_surface (point : vec) (triangle : vecs) : res bool :=
  p <- dinternal N point ;; t <- dinternals N triangle ;;
  a <- get t 0 ;; b <- get t 1 ;; c <- get t 2 ;; Ok (on_surface N p a b c).

(** dode2/numericalc.py:586-596, 573-584 *)
Definition triangle_volume_6d_numerical (t : vecs) : res (F N) :=
  a <- dinternals N t ;; triangle_area_numerical N a.
Definition dobj_volume_6d_numerical (o : obj4) : res (F N) :=
  foldM (fun v t => w <- triangle_volume_6d_numerical t ;; Ok (fadd N v w)) (fZ N 0) o.

(** dode2/numericalc.py:656-670: parallel and perpendicular components *)
Definition dprojection_numerical (vn : list (F N)) : res (pt N * pt N) :=
  a0 <- get vn 0 ;; a1 <- get vn 1 ;; a3 <- get vn 3 ;; a2 <- get vn 2 ;; a4 <- get vn 4 ;; a5 <- get vn 5 ;;
  Ok ((fsub N (fadd N (fmul N (fsin N) a0) a1) (fmul N (half N) a3),
       fadd N (fadd N (fmul N (fneg N (half N)) a0) a2) (fmul N (fsin N) a3),
       a4),
      (fsub N (fadd N (fmul N (fneg N (fsin N)) a0) a1) (fmul N (half N) a3),
       fsub N (fadd N (fmul N (fneg N (half N)) a0) a2) (fmul N (fsin N) a3),
       a5)).

(** dode2/numericalc.py:499-517: the name [triangle] is not defined in the loop.  (The
    module has no global of that name.) *)
Definition dinside_outside_obj (p : pt N) (o : list (list (pt N))) : res bool :=
  match o with [] => Ok true | _ :: _ => Raise NameError end.
(** dode2/numericalc.py:489-497, as in ico2 *)
Definition dinside_outside_obj_tau (v : vec) (o : arr) : res bool :=
  match o with
  | A3 _ => Raise NameError
  | _ => Raise ValueError
  end.
End Numeric.
