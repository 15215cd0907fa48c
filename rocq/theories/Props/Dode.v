(** Dodecagonal projection, group, similarity, areas: C47, C48, C49, C50. *)
From Coq Require Import Reals List ZArith Lia Lra Bool Permutation.
From Verif Require Import Base.Res Model.Tau Model.Arr Model.DodeScalar Model.Vectors Model.IcoMath1 Model.DodeMath1
  Model.DodeSymmetry Model.DodeArea Spec.Value Spec.RVec Spec.Shape Spec.IcoSpec Spec.DodeSpec.
From Verif Require Import Proofs.P_Dode.
Import ListNotations.
Local Open Scope R_scope.

(** C47: projection returns exactly the documented linear maps; projection3 is its
    second half; projection_perp returns None. *)
Theorem C47_exact : forall v, good 6 v ->
  exists e i, dprojection v = Ok (e, i) /\ canonv e /\ canonv i /\
    vals SIN e = dpar (vals SIN v) /\ vals SIN i = dperp (vals SIN v) /\ dprojection3 v = Ok i.
Proof. exact L_C47_exact. Qed.
Print Assumptions C47_exact.

Theorem C47_linear : forall k l x y, length x = 6%nat -> length y = 6%nat ->
  dpar (vadd (vscale k x) (vscale l y)) = vadd (vscale k (dpar x)) (vscale l (dpar y)) /\
  dperp (vadd (vscale k x) (vscale l y)) = vadd (vscale k (dperp x)) (vscale l (dperp y)).
Proof. exact L_C47_linear. Qed.
Print Assumptions C47_linear.

(** The two halves together determine the vector. *)
Theorem C47_injective : forall u v, good 6 u -> good 6 v -> dprojection u = dprojection v ->
  vals SIN u = vals SIN v.
Proof. exact L_C47_injective. Qed.
Print Assumptions C47_injective.

(** Vectors with rational coordinates: same perpendicular projection iff the first
    four coordinates and the sixth agree. *)
Theorem C47_separates : forall u v, good 6 u -> good 6 v ->
  Forall (fun t => tb t = 0%Z) u -> Forall (fun t => tb t = 0%Z) v ->
  (dprojection3 u = dprojection3 v <->
   firstn 4 (vals SIN u) = firstn 4 (vals SIN v) /\ nth 5 (vals SIN u) 0 = nth 5 (vals SIN v) 0).
Proof. exact L_C47_separates. Qed.
Print Assumptions C47_separates.

Theorem C47_projection_perp : forall a, dprojection_perp a = Ok None.
Proof. exact L_C47_projection_perp. Qed.
Print Assumptions C47_projection_perp.

Example C47_ex :
  let v := [T 1 0 2; T 0 1 1; t0; T 1 1 3; T 5 0 1; t1] in
  good 6 v /\
  dprojection v = Ok ([T (-1) 8 6; T 0 1 3; T 5 0 1], [T (-1) 2 6; T (-3) (-2) 6; T 1 0 1]) /\
  dprojection3 [t1;t0;t0;t0;T 7 0 1;t0] = dprojection3 [t1;t0;t0;t0;t0;t0].
Proof. exact E_C47_ex. Qed.

(** C48: 24 pairwise different matrices, identity first, closed under product and
    inverse. *)
Theorem C48_group :
  length dodesymop = 24%nat /\ NoDup dodesymop /\ nth_error dodesymop 0 = Some (identity 6) /\
  (forall a, In a dodesymop -> square 6 a) /\
  (forall a b, In a dodesymop -> In b dodesymop -> In (matmul a b) dodesymop) /\
  (forall a, In a dodesymop -> exists b, In b dodesymop /\ matmul a b = identity 6 /\ matmul b a = identity 6).
Proof. exact L_C48_group. Qed.
Print Assumptions C48_group.

(** Each acts on the parallel and on the perpendicular plane by an orthogonal 2x2
    matrix and fixes the fifth and sixth coordinate. *)
Theorem C48_isometry : forall op, In op dodesymop ->
  exists Mpar Mperp, orthogonal 2 Mpar /\ orthogonal 2 Mperp /\
    forall x, length x = 6%nat ->
      par_plane (matvec (IZRm op) x) = matvec Mpar (par_plane x) /\
      perp_plane (matvec (IZRm op) x) = matvec Mperp (perp_plane x) /\
      nth 4 (matvec (IZRm op) x) 0 = nth 4 x 0 /\ nth 5 (matvec (IZRm op) x) 0 = nth 5 x 0.
Proof. exact L_C48_isometry. Qed.
Print Assumptions C48_isometry.

Theorem C48_preserves_products : forall op u v, In op dodesymop -> length u = 6%nat -> length v = 6%nat ->
  dot (par_plane (matvec (IZRm op) u)) (par_plane (matvec (IZRm op) v)) = dot (par_plane u) (par_plane v) /\
  dot (perp_plane (matvec (IZRm op) u)) (perp_plane (matvec (IZRm op) v)) = dot (perp_plane u) (perp_plane v).
Proof. exact L_C48_preserves_products. Qed.
Print Assumptions C48_preserves_products.

Example C48_ex : In dm1 dodesymop /\ In dm2 dodesymop /\ matmul dm1 dm2 <> matmul dm2 dm1 /\
  matrixpow dm1 12 = identity 6 /\ matrixpow dm1 6 <> identity 6.
Proof. exact E_C48_ex. Qed.

(** C49: similarity(m) similarity(n) = similarity(m+n) for all integers. *)
Theorem C49_compose : forall m n,
  square 6 (similarity m) /\ matmul (similarity m) (similarity n) = similarity (m + n) /\
  similarity 0 = identity 6.
Proof. exact L_C49_compose. Qed.
Print Assumptions C49_compose.

(** The same on objects: applying m and then n is applying m+n; in particular -m
    undoes m on canonical objects. *)
Theorem C49_objects : forall m n o, goodo 6 o ->
  exists r r', similarity_obj o m = Ok r /\ similarity_obj r n = Ok r' /\ similarity_obj o (m + n) = Ok r'.
Proof. exact L_C49_objects. Qed.
Print Assumptions C49_objects.

Theorem C49_undo : forall m o, cgoodo 6 o ->
  exists r, similarity_obj o m = Ok r /\ similarity_obj r (- m) = Ok o.
Proof. exact L_C49_undo. Qed.
Print Assumptions C49_undo.

(** In perpendicular space similarity(m) is a rotation by m*75 degrees times the
    factor sqrt(2-sqrt 3)^m, in parallel space a rotation by m*15 degrees times
    sqrt(2+sqrt 3)^m.  The fifth and sixth coordinates are kept. *)
Theorem C49_factor : forall m x, length x = 6%nat ->
  let r := powerRZ (sqrt (2 - sqrt 3)) m in let r' := powerRZ (sqrt (2 + sqrt 3)) m in
  let a := IZR m * (5 * PI / 12) in let a' := IZR m * (PI / 12) in
  perp_plane (matvec (IZRm (similarity m)) x) = rotscale (r * cos a) (r * sin a) (perp_plane x) /\
  par_plane (matvec (IZRm (similarity m)) x) = rotscale (r' * cos a') (r' * sin a') (par_plane x) /\
  nth 4 (matvec (IZRm (similarity m)) x) 0 = nth 4 x 0 /\ nth 5 (matvec (IZRm (similarity m)) x) 0 = nth 5 x 0.
Proof. exact L_C49_factor. Qed.
Print Assumptions C49_factor.

(** similarity_vec is that matrix applied to the vector, exactly. *)
Theorem C49_vec : forall m v, good 6 v ->
  exists r, similarity_vec v m = Ok (Some r) /\ canonv r /\
    vals SIN r = matvec (IZRm (similarity m)) (vals SIN v).
Proof. exact L_C49_vec. Qed.
Print Assumptions C49_vec.

(** Areas of objects are multiplied by (2-sqrt 3)^m. *)
Theorem C49_area : forall m o r a, tris o -> similarity_obj o m = Ok r -> obj_area_6d (A4 o) = Ok (Some a) ->
  exists a', obj_area_6d (A4 r) = Ok (Some a') /\ canon a' /\ val SIN a' = powerRZ (2 - sqrt 3) m * val SIN a.
Proof. exact L_C49_area. Qed.
Print Assumptions C49_area.

(** It is not a pure scaling of perpendicular space: similarity(1) maps the second
    lattice vector to a multiple of itself for no factor. *)
Theorem C49_pure_scaling_refuted :
  ~ exists f, forall x, length x = 6%nat ->
      perp_plane (matvec (IZRm (similarity 1)) x) = vscale f (perp_plane x).
Proof. exact L_C49_pure_scaling_refuted. Qed.
Print Assumptions C49_pure_scaling_refuted.

Example C49_ex :
  similarity 2 = [[1;2;1;0;0;0];[0;1;2;1;0;0];[-1;0;2;2;0;0];[-2;-1;2;2;0;0];[0;0;0;0;1;0];[0;0;0;0;0;1]]%Z /\
  let t := [[t0;t0;t0;t0;t0;t0]; [t1;t0;t0;t0;t0;t0]; [t0;t1;t0;t0;t0;t0]] in
  tris [t] /\
  similarity_obj [t] 1 = Ok [[[t0;t0;t0;t0;t0;t0]; [t1;t0;t0;T (-1) 0 1;t0;t0]; [t1;t1;t0;t0;t0;t0]]] /\
  obj_area_6d (A4 [t]) = Ok (Some (T 1 0 4)) /\
  obj_area_6d (A4 [[[t0;t0;t0;t0;t0;t0]; [t1;t0;t0;T (-1) 0 1;t0;t0]; [t1;t1;t0;t0;t0;t0]]]) = Ok (Some (T 1 (-1) 2)).
Proof. exact E_C49_ex. Qed.

(** C50: exactly half the absolute cross product of the projected edges. *)
Theorem C50_exact : forall p0 p1 p2, goods 6 [p0;p1;p2] ->
  exists a, triangle_area_6d (A3 [p0;p1;p2]) = Ok (Some a) /\ canon a /\
    let X := fun q => nth 0 (dperp (vals SIN q)) 0 in let Y := fun q => nth 1 (dperp (vals SIN q)) 0 in
    val SIN a = Rabs ((X p1 - X p0) * (Y p2 - Y p0) - (Y p1 - Y p0) * (X p2 - X p0)) / 2.
Proof. exact L_C50_exact. Qed.
Print Assumptions C50_exact.

Theorem C50_nonneg_zero : forall p0 p1 p2 a, goods 6 [p0;p1;p2] ->
  triangle_area_6d (A3 [p0;p1;p2]) = Ok (Some a) ->
  0 <= val SIN a /\
  (a = t0 <-> collinear2 (map (fun q => perp_plane (vals SIN q)) [p0;p1;p2])).
Proof. exact L_C50_nonneg_zero. Qed.
Print Assumptions C50_nonneg_zero.

(** Same array for any order of the vertices, after a translation, and after any of
    the 24 operations about any centre. *)
Theorem C50_vertex_order : forall t t', length t = 3%nat -> goods 6 t -> Permutation t t' ->
  triangle_area_6d (A3 t) = triangle_area_6d (A3 t').
Proof. exact L_C50_vertex_order. Qed.
Print Assumptions C50_vertex_order.

Theorem C50_translation : forall o s r, tris o -> good 6 s -> dshift_object (A4 o) s = Ok (Some r) ->
  tris r /\ obj_area_6d (A4 r) = obj_area_6d (A4 o) /\
  Forall2 (fun t t' => triangle_area_6d (A3 t') = triangle_area_6d (A3 t)) o r.
Proof. exact L_C50_translation. Qed.
Print Assumptions C50_translation.

Theorem C50_symmetry : forall op c o r, In op dodesymop -> good 6 c -> tris o ->
  dsymop_obj op (A4 o) c = Ok (Some (A4 r)) -> obj_area_6d (A4 r) = obj_area_6d (A4 o).
Proof. exact L_C50_symmetry. Qed.
Print Assumptions C50_symmetry.

Theorem C50_symmetry_triangle : forall op t c t', In op dodesymop -> length t = 3%nat -> goods 6 t -> good 6 c ->
  dsymop_obj op (A3 t) c = Ok (Some (A3 t')) ->
  triangle_area_6d (A3 t') = triangle_area_6d (A3 t).
Proof. exact L_C50_symmetry_triangle. Qed.
Print Assumptions C50_symmetry_triangle.

(** obj_area_6d is the sum over the triangles (and over the objects of a 5-d array). *)
Theorem C50_sum : forall o, tris o ->
  exists a, obj_area_6d (A4 o) = Ok (Some a) /\ canon a /\ val SIN a = Rsum (map parea o).
Proof. exact L_C50_sum. Qed.
Print Assumptions C50_sum.

Theorem C50_nested : forall os, Forall tris os ->
  exists a, obj_area_6d (A5 os) = Ok (Some a) /\ canon a /\ val SIN a = Rsum (map (fun o => Rsum (map parea o)) os).
Proof. exact L_C50_nested. Qed.
Print Assumptions C50_nested.

Theorem C50_parea : forall t a, length t = 3%nat -> goods 6 t ->
  triangle_area_6d (A3 t) = Ok (Some a) -> val SIN a = parea t.
Proof. exact L_C50_parea. Qed.
Print Assumptions C50_parea.

Theorem C50_append : forall a b va vb vab, tris a -> tris b ->
  obj_area_6d (A4 a) = Ok (Some va) -> obj_area_6d (A4 b) = Ok (Some vb) -> dadd va vb = Ok vab ->
  obj_area_6d (A4 (a ++ b)) = Ok (Some vab).
Proof. exact L_C50_append. Qed.
Print Assumptions C50_append.

Theorem C50_order : forall o o', tris o -> Permutation o o' -> obj_area_6d (A4 o) = obj_area_6d (A4 o').
Proof. exact L_C50_order. Qed.
Print Assumptions C50_order.

(** The full symmetric orbit of an object has 24 times its area. *)
Theorem C50_symmetric : forall o c r a, tris o -> good 6 c ->
  dgenerator_obj_symmetric_obj (A4 o) c = Ok (Some (A4 r)) -> obj_area_6d (A4 o) = Ok (Some a) ->
  exists a', obj_area_6d (A4 r) = Ok (Some a') /\ canon a' /\ val SIN a' = 24 * val SIN a.
Proof. exact L_C50_symmetric. Qed.
Print Assumptions C50_symmetric.

Example C50_ex :
  let t := [[t0;t0;t0;t0;t0;t0]; [t1;t0;t0;t0;t0;t0]; [t0;t1;t0;t0;t0;t0]] in
  let u := [[t0;t0;t0;t0;t0;t0]; [t1;t0;t0;t0;t0;t0]; [t0;t0;t1;t0;t0;t0]] in
  tris [t;u] /\ triangle_area_6d (A3 t) = Ok (Some (T 1 0 4)) /\ triangle_area_6d (A3 (rev t)) = Ok (Some (T 1 0 4)) /\
  triangle_area_6d (A3 u) = Ok (Some (T 0 1 2)) /\ obj_area_6d (A4 [t;u]) = Ok (Some (T 1 2 4)).
Proof. exact E_C50_ex. Qed.
