(** Vector functions of ico2: C06, C07. *)
From Coq Require Import Reals List ZArith Lia Lra Bool.
From Verif Require Import Base.Res Model.Tau Model.Arr Model.IcoScalar Model.Vectors Model.IcoMath1
  Spec.Value Spec.RVec Spec.Shape.
From Verif Require Import Proofs.P_Vector.
Import ListNotations.
Local Open Scope R_scope.

(** C06: vector sum; too short a second argument raises. *)
Theorem C06_add_vectors : forall u v, wfv u -> wfv v -> length u = length v ->
  evalsv TAU (add_vectors u v) (vadd (vals TAU u) (vals TAU v)).
Proof. exact L_C06_add_vectors. Qed.
Print Assumptions C06_add_vectors.

Theorem C06_add_vectors_short : forall u v, wfv u -> wfv v -> (length v < length u)%nat ->
  add_vectors u v = Raise IndexError.
Proof. exact L_C06_add_vectors_short. Qed.
Print Assumptions C06_add_vectors_short.

Theorem C06_sub_vectors : forall u v, wfv u -> wfv v -> length u = length v ->
  evalsv TAU (sub_vectors u v) (vsub (vals TAU u) (vals TAU v)).
Proof. exact L_C06_sub_vectors. Qed.
Print Assumptions C06_sub_vectors.

Theorem C06_mul_vector : forall v c, wfv v -> wf c ->
  evalsv TAU (mul_vector v c) (vscale (val TAU c) (vals TAU v)).
Proof. exact L_C06_mul_vector. Qed.
Print Assumptions C06_mul_vector.

(** The ndim guards. *)
Theorem C06_ndim_guards : forall a b c,
  (match a, b with A2 _, A2 _ => False | _, _ => True end -> sub_vectors_nd add mul a b = Ok None) /\
  (match a with A2 _ => False | _ => True end -> mul_vector_nd mul a c = Ok None) /\
  (match a with A3 _ | A4 _ => False | _ => True end -> mul_vectors_nd mul a c = Ok None) /\
  (match a, b with A2 _, A2 _ | A3 _, A2 _ | A3 _, A3 _ => False | _, _ => True end ->
     dot_product_nd add mul a b = Ok None).
Proof. exact L_C06_ndim_guards. Qed.
Print Assumptions C06_ndim_guards.

Theorem C06_mul_vectors : forall vs c, Forall wfv vs -> wf c ->
  exists rs, mul_vectors_nd mul (A3 vs) c = Ok (Some rs) /\ Forall canonv rs /\
    map (vals TAU) rs = map (fun v => vscale (val TAU c) (vals TAU v)) vs.
Proof. exact L_C06_mul_vectors. Qed.
Print Assumptions C06_mul_vectors.

Theorem C06_inner_product : forall u v, wfv u -> wfv v -> length u = length v ->
  exists r, inner_product u v = Ok (Some r) /\ canon r /\ val TAU r = dot (vals TAU u) (vals TAU v).
Proof. exact L_C06_inner_product. Qed.
Print Assumptions C06_inner_product.

Theorem C06_inner_product_none : forall u v, wfv u -> wfv v ->
  (inner_product u v = Ok None <-> length u <> length v).
Proof. exact L_C06_inner_product_none. Qed.
Print Assumptions C06_inner_product_none.

Theorem C06_outer_product : forall u v, wfv u -> wfv v -> length u = 3%nat -> length v = 3%nat ->
  evalsv TAU (outer_product u v) (cross (vals TAU u) (vals TAU v)).
Proof. exact L_C06_outer_product. Qed.
Print Assumptions C06_outer_product.

(** The cross product of the specification is the geometric one. *)
Theorem C06_cross_geometric : forall u v : list R, length u = 3%nat -> length v = 3%nat ->
  dot (cross u v) u = 0 /\ dot (cross u v) v = 0 /\
  norm2 (cross u v) = norm2 u * norm2 v - dot u v * dot u v.
Proof. exact L_C06_cross_geometric. Qed.
Print Assumptions C06_cross_geometric.

Theorem C06_dot_product_matrix_vector : forall rows v,
  rows <> [] -> rect rows (length v) -> Forall wfv rows -> wfv v ->
  exists r, dot_product_nd add mul (A3 rows) (A2 v) = Ok (Some (A2 r)) /\ canonv r /\
    vals TAU r = matvec (map (vals TAU) rows) (vals TAU v).
Proof. exact L_C06_dot_product_matrix_vector. Qed.
Print Assumptions C06_dot_product_matrix_vector.

Theorem C06_dot_product_matrix_matrix : forall r1 r2 n,
  r1 <> [] -> r2 <> [] -> rect r1 (length r2) -> rect r2 n -> Forall wfv r1 -> Forall wfv r2 ->
  exists r, dot_product_nd add mul (A3 r1) (A3 r2) = Ok (Some (A3 r)) /\ Forall canonv r /\
    map (vals TAU) r = matmulR n (map (vals TAU) r1) (map (vals TAU) r2).
Proof. exact L_C06_dot_product_matrix_matrix. Qed.
Print Assumptions C06_dot_product_matrix_matrix.

Theorem C06_dot_product_1_vector : forall m v, m <> [] -> rect m (length v) -> wfv v ->
  exists r, dot_product_1_nd add mul m (A2 v) = Ok (Some (A2 r)) /\ canonv r /\
    vals TAU r = matvec (IZRm m) (vals TAU v).
Proof. exact L_C06_dot_product_1_vector. Qed.
Print Assumptions C06_dot_product_1_vector.

Example C06_ex :
  let u := [T 1 1 2; T 0 1 1; T 3 0 1] in let v := [T 1 0 1; T 2 (-1) 3; T 0 0 1] in
  wfv u /\ wfv v /\ add_vectors u v = Ok [T 3 1 2; T 2 2 3; T 3 0 1] /\
  inner_product u v = Ok (Some (T 1 5 6)) /\
  outer_product u v = Ok [T (-2) 1 1; T 3 0 1; T 1 (-6) 6].
Proof. exact E_C06_ex. Qed.

(** C07: on a list of column vectors dot_product_1 returns
    mat1[k][j]*sum_i mat2[i][j] instead of the matrix product ... *)
Theorem C07_dot_product_1_3d_value : forall m rows2 n t,
  m <> [] -> rows2 <> [] -> rect m t -> t = length rows2 -> rect rows2 n -> (n <= t)%nat -> Forall wfv rows2 ->
  exists r, dot_product_1_nd add mul m (A3 rows2) = Ok (Some (A3 r)) /\ Forall canonv r /\
    map (vals TAU) r =
    map (fun row => map (fun j => IZR (nth j row 0%Z) * Rsum (col (map (vals TAU) rows2) j)) (seq 0 n)) m.
Proof. exact L_C07_dot_product_1_3d_value. Qed.
Print Assumptions C07_dot_product_1_3d_value.

(** ... it raises IndexError as soon as there are more columns than the matrix has ... *)
Theorem C07_dot_product_1_3d_raises : forall m rows2 n t,
  m <> [] -> rows2 <> [] -> rect m t -> t = length rows2 -> rect rows2 n -> (t < n)%nat -> Forall wfv rows2 ->
  dot_product_1_nd add mul m (A3 rows2) = Raise IndexError.
Proof. exact L_C07_dot_product_1_3d_raises. Qed.
Print Assumptions C07_dot_product_1_3d_raises.

(** ... so the documented contract (matrix product) is false. *)
Theorem C07_dot_product_1_3d_refuted :
  exists m rows2 r, rect m 2 /\ rect rows2 2 /\ Forall wfv rows2 /\
    dot_product_1_nd add mul m (A3 rows2) = Ok (Some (A3 r)) /\
    map (vals TAU) r <> matmulR 2 (IZRm m) (map (vals TAU) rows2).
Proof. exact L_C07_dot_product_1_3d_refuted. Qed.
Print Assumptions C07_dot_product_1_3d_refuted.

(** mul_vectors on a list of objects (4-d array) returns None although it is
    documented to return the scaled array. *)
Theorem C07_mul_vectors_4d : forall o c, goodo 6 o -> wf c ->
  mul_vectors_nd mul (A4 o) c = Ok None.
Proof. exact L_C07_mul_vectors_4d. Qed.
Print Assumptions C07_mul_vectors_4d.

Example C07_ex :
  dot_product_1_nd add mul [[0;1];[1;0]]%Z (A3 [[t1;t1];[t0;t0]]) = Ok (Some (A3 [[t0;t1];[t1;t0]])) /\
  dot_product_1_nd add mul [[1;0];[0;1]]%Z (A3 [[t1;t1;t0];[t0;t0;t1]]) = Raise IndexError /\
  mul_vectors_nd mul (A4 [[[t1;t1;t1;t1;t1;t1]]]) (T 2 0 1) = Ok None.
Proof. exact E_C07_ex. Qed.
