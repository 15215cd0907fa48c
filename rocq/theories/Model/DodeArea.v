(** dode2/utils.py:36-135 (shift, areas). *)
From Coq Require Import List ZArith.
From Verif Require Import Base.Res Model.Tau Model.Arr Model.DodeScalar Model.Vectors Model.DodeMath1 Model.Sign.
Import ListNotations.
Local Open Scope res_scope.

(** dode2/utils.py:36-51 *)
Definition dshift_object := shift_object_ dadd.

(** dode2/utils.py:111-135.  The sign test is on a1+a2*TAU (with TAU=sqrt(3)/2)
    without the division by a3; it is decided exactly (see Sign.v). *)
Definition triangle_area (vts : vecs) : res tau :=
  q1 <- get vts 1 ;; q0 <- get vts 0 ;; v1 <- dsub_vectors q1 q0 ;;
  q2 <- get vts 2 ;; v2 <- dsub_vectors q2 q0 ;;
  v <- douter_product v1 v2 ;;
  z <- get v 2 ;;
  if neg_sqrt 3 (2 * ta z) (tb z) then dmul z (T (-1) 0 2) else dmul z (T 1 0 2).

(** dode2/utils.py:86-106, the ndim==3 branch: vertices 0..2 are projected, any
    further vertex is ignored. *)
Definition triangle_area_6d_3 (t : vecs) : res tau :=
  q0 <- get t 0 ;; v0 <- dprojection3 q0 ;;
  q1 <- get t 1 ;; v1 <- dprojection3 q1 ;;
  q2 <- get t 2 ;; v2 <- dprojection3 q2 ;;
  triangle_area [v0; v1; v2].

Definition triangle_area_6d (a : arr) : res (option tau) :=
  match a with
  | A3 t => v <- triangle_area_6d_3 t ;; Ok (Some v)
  | _ => Ok None
  end.

(** dode2/utils.py:56-84 *)
Definition sum_areas (w : tau) (o : obj4) : res tau :=
  foldM (fun w t => v <- triangle_area_6d_3 t ;; dadd w v) w o.

Definition obj_area_6d (a : arr) : res (option tau) :=
  match a with
  | A4 o => w <- sum_areas t0 o ;; Ok (Some w)
  | A5 os => w <- foldM sum_areas t0 os ;; Ok (Some w)
  | A3 t => triangle_area_6d (A3 t)
  | _ => Ok None
  end.

(** dode2/occupation_domain.py:22-23, 72-92 *)
Definition dvolume (a : arr) : res (option tau) := obj_area_6d a.
Definition dshift := dshift_object.
