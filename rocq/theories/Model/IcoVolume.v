(** ico2/utils.py:34-131 (shift, volumes) and the thin wrappers of
    ico2/occupation_domain.py:24-93. *)
From Coq Require Import List ZArith.
From Verif Require Import Base.Res Model.Tau Model.Arr Model.IcoScalar Model.Vectors Model.IcoMath1
  Model.IcoSymmetry Model.Sign.
Import ListNotations.
Local Open Scope res_scope.

(** ico2/utils.py:34-49 *)
Definition shift_object := shift_object_ add.

(** ico2/utils.py:106-131 *)
Definition tetrahedron_volume (vts : vecs) : res tau :=
  q1 <- get vts 1 ;; q0 <- get vts 0 ;; v1 <- sub_vectors q1 q0 ;;
  q2 <- get vts 2 ;; v2 <- sub_vectors q2 q0 ;;
  q3 <- get vts 3 ;; v3 <- sub_vectors q3 q0 ;;
  v <- outer_product v1 v2 ;;
  v <- inner_product v v3 ;;
  v <- notNone v ;;
  if neg_tau v then mul v (T (-1) 0 6) else mul v (T 1 0 6).

(** ico2/utils.py:84-104, the ndim==3 branch: vertices 0..3 are projected, any
    further vertex is ignored. *)
Definition tetrahedron_volume_6d_3 (t : vecs) : res tau :=
  q0 <- get t 0 ;; v0 <- projection3 q0 ;;
  q1 <- get t 1 ;; v1 <- projection3 q1 ;;
  q2 <- get t 2 ;; v2 <- projection3 q2 ;;
  q3 <- get t 3 ;; v3 <- projection3 q3 ;;
  tetrahedron_volume [v0; v1; v2; v3].

Definition tetrahedron_volume_6d (a : arr) : res (option tau) :=
  match a with
  | A3 t => v <- tetrahedron_volume_6d_3 t ;; Ok (Some v)
  | _ => Ok None
  end.

(** ico2/utils.py:54-82 *)
Definition sum_volumes (w : tau) (o : obj4) : res tau :=
  foldM (fun w t => v <- tetrahedron_volume_6d_3 t ;; add w v) w o.

Definition obj_volume_6d (a : arr) : res (option tau) :=
  match a with
  | A4 o => w <- sum_volumes t0 o ;; Ok (Some w)
  | A5 os => w <- foldM sum_volumes t0 os ;; Ok (Some w)
  | A3 t => tetrahedron_volume_6d (A3 t)
  | _ => Ok None
  end.

(** ico2/occupation_domain.py:24-25 *)
Definition volume := obj_volume_6d.
(** ico2/occupation_domain.py:27-48 *)
Definition symmetric (o : arr) (centre : vec) : res (option arr) :=
  match o with
  | A3 _ | A4 _ => generator_obj_symmetric_obj o centre
  | _ => Ok None
  end.
(** ico2/occupation_domain.py:50-71 *)
Definition symmetric_0 (o : arr) (centre : vec) (i : Z) : res (option arr) :=
  match o with
  | A3 _ | A4 _ => generator_obj_symmetric_tetrahedron_0 o centre i
  | _ => Ok None
  end.
(** ico2/occupation_domain.py:73-93 *)
Definition shift := shift_object.
