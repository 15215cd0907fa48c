(** Symmetry operations on the machine.  The matrices come out of np.identity and np.dot and
    are float64 arrays, so that mul() is called with a float64 first argument: its products
    and sums are float64, the copy handed to np.gcd is cast to int64, and the quotients are
    float64 divided by int64.  A zero entry of a matrix may be -0.0 in the source and is 0 here:
    the sign of a zero product shows neither in the comparison with 0 nor in int(). *)
From Coq Require Import List ZArith Bool.
From Flocq Require Import IEEE754.BinarySingleNaN IEEE754.Binary IEEE754.Bits.
From Verif Require Import Base.Res Model.Tau Model.Arr Model.Machine Model.Vectors Model.MachineVec.
Import ListNotations.
Local Open Scope Z_scope.
Local Open Scope res_scope.

Definition ffadd (x y : binary64) : binary64 := b64_plus mode_NE x y.
Definition ffmul (x y : binary64) : binary64 := b64_mult mode_NE x y.
(** The cast of a float64 to int64 truncates; what does not fit (and nan) becomes -2^63, as on
    x86-64. *)
Definition fcast (x : binary64) : Z :=
  match fint x with Ok z => if (- 2^63 <=? z) && (z <? 2^63) then z else - 2^63 | Raise _ => - 2^63 end.

(** ico2/math1.py:61-68 and dode2/math1.py:62-69 with float64 c1, c2, c3 *)
Definition m_reduce_f (c1 c2 c3 : binary64) : res tau :=
  let g := f64 (wgcd (wgcd (fcast c1) (fcast c2)) (fcast c3)) in
  let q1 := fdiv c1 g in let q2 := fdiv c2 g in let q3 := fdiv c3 g in
  if fltz q3 then
    i1 <- fint (fneg q1) ;; i2 <- fint (fneg q2) ;; i3 <- fint (fneg q3) ;; Ok (T i1 i2 i3)
  else
    i1 <- fint q1 ;; i2 <- fint q2 ;; i3 <- fint q3 ;; Ok (T i1 i2 i3).
Definition m_reduce_fd (c1 c2 c3 : binary64) : res tau :=
  let g := f64 (wgcd (wgcd (fcast c1) (fcast c2)) (fcast c3)) in
  i1 <- fint (fdiv c1 g) ;; i2 <- fint (fdiv c2 g) ;; i3 <- fint (fdiv c3 g) ;;
  if i3 <? 0 then Ok (T (- i1) (- i2) (- i3)) else Ok (T i1 i2 i3).

(** ico2/math1.py:42-68 with a of type float64 *)
Definition m_fmul (a b : tau) : res tau :=
  let a0 := f64 (ta a) in let a1 := f64 (tb a) in let a2 := f64 (tc a) in
  let b0 := f64 (ta b) in let b1 := f64 (tb b) in let b2 := f64 (tc b) in
  m_reduce_f (ffadd (ffmul a0 b0) (ffmul a1 b1))
             (ffadd (ffadd (ffmul a0 b1) (ffmul a1 b0)) (ffmul a1 b1))
             (ffmul a2 b2).
(** dode2/math1.py:43-69 with a of type float64 *)
Definition md_fmul (a b : tau) : res tau :=
  let a0 := f64 (ta a) in let a1 := f64 (tb a) in let a2 := f64 (tc a) in
  let b0 := f64 (ta b) in let b1 := f64 (tb b) in let b2 := f64 (tc b) in
  m_reduce_fd (ffadd (ffmul (ffmul (f64 4) a0) b0) (ffmul (ffmul (f64 3) a1) b1))
              (ffmul (f64 4) (ffadd (ffmul a0 b1) (ffmul a1 b0)))
              (ffmul (ffmul (f64 4) a2) b2).

Section Symmetry.
  (** add and mul on int64, mul with a float64 first argument *)
  Variables add mul fmul : tau -> tau -> res tau.
  (** symmetry.py:51-57 (ico2), 59-65 (dode2); math1.py:358-373 in dot_product_1 *)
  Definition msymop_vec_ (op : list (list Z)) (vt centre : vec) : res vec :=
    v <- sub_vectors_ add mul vt centre ;;
    v <- dot_product_1_ add fmul op v ;;
    v <- notNone v ;;
    add_vectors_ add v centre.
  (** symmetry.py:40-49 *)
  Definition msymop_vecs_ (op : list (list Z)) (vts : vecs) (centre : vec) : res vecs :=
    mapM (fun vt => msymop_vec_ op vt centre) vts.
  (** symmetry.py:63-82 *)
  Definition mgenerator_obj_symmetric_obj_ (ops : list (list (list Z))) (o : arr) (centre : vec) : res (option arr) :=
    match o with
    | A3 vs => r <- mapM (fun op => msymop_vecs_ op vs centre) ops ;; Ok (Some (A4 r))
    | A4 ob =>
        r <- mapM (fun op => mapM (fun vts => msymop_vecs_ op vts centre) ob) ops ;;
        Ok (Some (A4 (concat r)))
    | _ => Ok None
    end.
End Symmetry.
(** ico2/symmetry.py:63-82, dode2/symmetry.py:67-87 *)
Definition m_generator_obj_symmetric_obj := mgenerator_obj_symmetric_obj_ m_add m_mul m_fmul.
Definition md_generator_obj_symmetric_obj := mgenerator_obj_symmetric_obj_ md_add md_mul md_fmul.
