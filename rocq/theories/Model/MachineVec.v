(** Vector functions, volumes and areas on the machine: the code of Vectors.v with the int64
    arithmetic of Machine.v, and the sign tests in float64. *)
From Coq Require Import List ZArith.
From Verif Require Import Base.Res Model.Tau Model.Arr Model.Machine Model.Vectors Model.Num Model.IcoMath1 Model.DodeMath1 Model.IcoNumeric Model.DodeNumeric.
Import ListNotations.
Local Open Scope res_scope.

(** ico2/math1.py:138-178, 431-458, 527-551; ico2/utils.py:34-49 *)
Definition m_add_vectors := add_vectors_ m_add.
Definition m_sub_vectors := sub_vectors_ m_add m_mul.
Definition m_mul_vector := mul_vector_ m_mul.
Definition m_outer_product := outer_product_ m_add m_mul.
Definition m_inner_product := inner_product_ m_add m_mul.
Definition m_mtrixcal := mtrixcal_ m_add m_mul.
Definition m_centroid := centroid_ m_add m_mul.
Definition m_shift_object := shift_object_ m_add.
Definition m_projection3 (vt : vec) : res vec :=
  v1i <- m_mtrixcal m3 m2 m2 m0 m4 m0 vt ;;
  v2i <- m_mtrixcal m2 m0 m0 m3 m2 m3 vt ;;
  v3i <- m_mtrixcal m0 m3 m4 m1 m0 m2 vt ;;
  Ok [v1i; v2i; v3i].

(** ico2/utils.py:106-131; numeric_value(v) < 0.0 in float64 *)
Definition m_tetrahedron_volume (vts : vecs) : res tau :=
  q1 <- get vts 1 ;; q0 <- get vts 0 ;; v1 <- m_sub_vectors q1 q0 ;;
  q2 <- get vts 2 ;; v2 <- m_sub_vectors q2 q0 ;;
  q3 <- get vts 3 ;; v3 <- m_sub_vectors q3 q0 ;;
  v <- m_outer_product v1 v2 ;;
  v <- m_inner_product v v3 ;;
  v <- notNone v ;;
  if flt Bnum (numeric_value Bnum v) (fZ Bnum 0) then m_mul v (T (-1) 0 6) else m_mul v (T 1 0 6).

(** ico2/utils.py:84-104, the ndim==3 branch *)
Definition m_tetrahedron_volume_6d_3 (t : vecs) : res tau :=
  q0 <- get t 0 ;; v0 <- m_projection3 q0 ;;
  q1 <- get t 1 ;; v1 <- m_projection3 q1 ;;
  q2 <- get t 2 ;; v2 <- m_projection3 q2 ;;
  q3 <- get t 3 ;; v3 <- m_projection3 q3 ;;
  m_tetrahedron_volume [v0; v1; v2; v3].

(** ico2/utils.py:54-82 *)
Definition m_sum_volumes (w : tau) (o : obj4) : res tau :=
  foldM (fun w t => v <- m_tetrahedron_volume_6d_3 t ;; m_add w v) w o.
Definition m_obj_volume_6d (a : arr) : res (option tau) :=
  match a with
  | A4 o => w <- m_sum_volumes t0 o ;; Ok (Some w)
  | A5 os => w <- foldM m_sum_volumes t0 os ;; Ok (Some w)
  | A3 t => v <- m_tetrahedron_volume_6d_3 t ;; Ok (Some v)
  | _ => Ok None
  end.

(** dode2/math1.py:144-184, 439-467, 511-535; dode2/utils.py:36-51 *)
Definition md_add_vectors := add_vectors_ md_add.
Definition md_sub_vectors := sub_vectors_ md_add md_mul.
Definition md_outer_product := outer_product_ md_add md_mul.
Definition md_mtrixcal := mtrixcal_ md_add md_mul.
Definition md_centroid := centroid_ md_add md_mul.
Definition md_shift_object := shift_object_ md_add.
Definition md_projection3 (vt : vec) : res vec :=
  v1i <- md_mtrixcal M6 M1 M0 M4 M0 M0 vt ;;
  v2i <- md_mtrixcal M4 M0 M1 M6 M0 M0 vt ;;
  v3i <- md_mtrixcal M0 M0 M0 M0 M0 M1 vt ;;
  Ok [v1i; v2i; v3i].

(** dode2/utils.py:111-135; the test is a1+a2*TAU < 0.0 in float64 *)
Definition md_triangle_area (vts : vecs) : res tau :=
  q1 <- get vts 1 ;; q0 <- get vts 0 ;; v1 <- md_sub_vectors q1 q0 ;;
  q2 <- get vts 2 ;; v2 <- md_sub_vectors q2 q0 ;;
  v <- md_outer_product v1 v2 ;;
  z <- get v 2 ;;
  if flt Bnum (fadd Bnum (fZ Bnum (ta z)) (fmul Bnum (fZ Bnum (tb z)) (fsin Bnum))) (fZ Bnum 0)
  then md_mul z (T (-1) 0 2) else md_mul z (T 1 0 2).

(** dode2/utils.py:86-106, the ndim==3 branch *)
Definition md_triangle_area_6d_3 (t : vecs) : res tau :=
  q0 <- get t 0 ;; v0 <- md_projection3 q0 ;;
  q1 <- get t 1 ;; v1 <- md_projection3 q1 ;;
  q2 <- get t 2 ;; v2 <- md_projection3 q2 ;;
  md_triangle_area [v0; v1; v2].

(** dode2/utils.py:56-84 *)
Definition md_sum_areas (w : tau) (o : obj4) : res tau :=
  foldM (fun w t => v <- md_triangle_area_6d_3 t ;; md_add w v) w o.
Definition md_obj_area_6d (a : arr) : res (option tau) :=
  match a with
  | A4 o => w <- md_sum_areas t0 o ;; Ok (Some w)
  | A5 os => w <- foldM md_sum_areas t0 os ;; Ok (Some w)
  | A3 t => v <- md_triangle_area_6d_3 t ;; Ok (Some v)
  | _ => Ok None
  end.
