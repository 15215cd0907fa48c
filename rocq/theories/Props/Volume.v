(** Volumes, shifts, centroids of ico2: C15, C16, C17, C18. *)
From Coq Require Import Reals List ZArith Lia Lra Bool Permutation.
From Verif Require Import Base.Res Model.Tau Model.Arr Model.IcoScalar Model.Vectors Model.IcoMath1 Model.IcoSymmetry
  Model.IcoVolume Spec.Value Spec.RVec Spec.Shape Spec.Mean Spec.Geometry Spec.IcoSpec.
From Verif Require Import Proofs.P_Volume.
Import ListNotations.
Local Open Scope R_scope.

(** C15: the volume of the projected tetrahedron, exactly. *)
Theorem C15_exact : forall p0 p1 p2 p3, goods 6 [p0;p1;p2;p3] ->
  exists v, tetrahedron_volume_6d (A3 [p0;p1;p2;p3]) = Ok (Some v) /\ canon v /\
    let P := fun q => perp (vals TAU q) in
    val TAU v = Rabs (det3 (vsub (P p1) (P p0)) (vsub (P p2) (P p0)) (vsub (P p3) (P p0))) / 6.
Proof. exact L_C15_exact. Qed.
Print Assumptions C15_exact.

(** det3 is the 3x3 determinant. *)
Theorem C15_det3 : forall a b c d e f g h i,
  det3 [a;b;c] [d;e;f] [g;h;i] = a*(e*i-f*h) - b*(d*i-f*g) + c*(d*h-e*g).
Proof. exact L_C15_det3. Qed.
Print Assumptions C15_det3.

(** Non-negative; zero iff the four projections are coplanar. *)
Theorem C15_nonneg_zero : forall p0 p1 p2 p3 v, goods 6 [p0;p1;p2;p3] ->
  tetrahedron_volume_6d (A3 [p0;p1;p2;p3]) = Ok (Some v) ->
  0 <= val TAU v /\
  (v = t0 <-> coplanar (map (fun q => perp (vals TAU q)) [p0;p1;p2;p3])).
Proof. exact L_C15_nonneg_zero. Qed.
Print Assumptions C15_nonneg_zero.

(** Independent of the order of the vertices, as the same array. *)
Theorem C15_vertex_order : forall t t', length t = 4%nat -> goods 6 t -> Permutation t t' ->
  tetrahedron_volume_6d (A3 t) = tetrahedron_volume_6d (A3 t').
Proof. exact L_C15_vertex_order. Qed.
Print Assumptions C15_vertex_order.

(** Unchanged by translation and by the 120 operations, as the same array. *)
Theorem C15_translation : forall t s t', length t = 4%nat -> goods 6 t -> good 6 s ->
  Forall2 (fun v v' => add_vectors v s = Ok v') t t' ->
  tetrahedron_volume_6d (A3 t') = tetrahedron_volume_6d (A3 t).
Proof. exact L_C15_translation. Qed.
Print Assumptions C15_translation.

Theorem C15_symmetry : forall op t c t', In op icosasymop -> length t = 4%nat -> goods 6 t -> good 6 c ->
  symop_obj op (A3 t) c = Ok (Some (A3 t')) ->
  tetrahedron_volume_6d (A3 t') = tetrahedron_volume_6d (A3 t).
Proof. exact L_C15_symmetry. Qed.
Print Assumptions C15_symmetry.

Example C15_ex :
  let t := [[t0;t0;t0;t0;t0;t0]; [t1;t0;t0;t0;t0;t0]; [t0;t1;t0;t0;t0;t0]; [t0;t0;t1;t0;t0;T 0 1 2]] in
  goods 6 t /\ tetrahedron_volume_6d (A3 t) = Ok (Some (T (-1) 1 6)) /\
  tetrahedron_volume_6d (A3 (rev t)) = Ok (Some (T (-1) 1 6)).
Proof. exact E_C15_ex. Qed.

(** C16: the object volume is the sum of the volumes of its tetrahedra. *)
Theorem C16_sum : forall o, tets o ->
  exists v, volume (A4 o) = Ok (Some v) /\ canon v /\ val TAU v = Rsum (map pvol o).
Proof. exact L_C16_sum. Qed.
Print Assumptions C16_sum.

(** pvol, in terms of the single-tetrahedron function. *)
Theorem C16_pvol : forall t v, length t = 4%nat -> goods 6 t ->
  tetrahedron_volume_6d (A3 t) = Ok (Some v) -> val TAU v = pvol t.
Proof. exact L_C16_pvol. Qed.
Print Assumptions C16_pvol.

(** A list of objects (5-d array): the sum over all objects. *)
Theorem C16_nested : forall os, Forall tets os ->
  exists v, volume (A5 os) = Ok (Some v) /\ canon v /\ val TAU v = Rsum (map (fun o => Rsum (map pvol o)) os).
Proof. exact L_C16_nested. Qed.
Print Assumptions C16_nested.

Theorem C16_append : forall a b va vb vab, tets a -> tets b ->
  volume (A4 a) = Ok (Some va) -> volume (A4 b) = Ok (Some vb) -> add va vb = Ok vab ->
  volume (A4 (a ++ b)) = Ok (Some vab).
Proof. exact L_C16_append. Qed.
Print Assumptions C16_append.

Theorem C16_order : forall o o', tets o -> Permutation o o' -> volume (A4 o) = volume (A4 o').
Proof. exact L_C16_order. Qed.
Print Assumptions C16_order.

Theorem C16_vertex_order : forall o o', tets o -> Forall2 (fun t t' => Permutation t t') o o' ->
  volume (A4 o) = volume (A4 o').
Proof. exact L_C16_vertex_order. Qed.
Print Assumptions C16_vertex_order.

Theorem C16_symmetric : forall o c r v, tets o -> good 6 c -> symmetric (A4 o) c = Ok (Some (A4 r)) ->
  volume (A4 o) = Ok (Some v) ->
  exists v', volume (A4 r) = Ok (Some v') /\ canon v' /\ val TAU v' = 120 * val TAU v.
Proof. exact L_C16_symmetric. Qed.
Print Assumptions C16_symmetric.

Theorem C16_shift : forall o s r, tets o -> good 6 s -> shift (A4 o) s = Ok (Some r) ->
  volume (A4 r) = volume (A4 o).
Proof. exact L_C16_shift. Qed.
Print Assumptions C16_shift.

Theorem C16_symop : forall op c o r, In op icosasymop -> good 6 c -> tets o ->
  symop_obj op (A4 o) c = Ok (Some (A4 r)) -> volume (A4 r) = volume (A4 o).
Proof. exact L_C16_symop. Qed.
Print Assumptions C16_symop.

Example C16_ex :
  let t := [[t0;t0;t0;t0;t0;t0]; [t1;t0;t0;t0;t0;t0]; [t0;t1;t0;t0;t0;t0]; [t0;t0;t1;t0;t0;T 0 1 2]] in
  let u := [[t0;t0;t0;t0;t0;t0]; [t1;t0;t0;t0;t0;t0]; [t0;t1;t0;t0;t0;t0]; [t0;t0;t1;t0;t0;t0]] in
  tets [t;u] /\ volume (A4 [t]) = Ok (Some (T (-1) 1 6)) /\ volume (A4 [u]) = Ok (Some (T 0 1 3)) /\
  volume (A4 [t;u]) = Ok (Some (T (-1) 3 6)).
Proof. exact E_C16_ex. Qed.

(** C17: shift adds the vector to every vertex, keeping shape and order. *)
Theorem C17_exact : forall o s, goodo 6 o -> good 6 s ->
  exists r, shift (A4 o) s = Ok (Some r) /\ cgoodo 6 r /\
    Forall2 (Forall2 (fun v v' => add_vectors v s = Ok v')) o r /\
    map (map (vals TAU)) r = map (map (fun v => vadd (vals TAU v) (vals TAU s))) o.
Proof. exact L_C17_exact. Qed.
Print Assumptions C17_exact.

(** Shifting by u and then by v is shifting by u+v. *)
Theorem C17_compose : forall o u v s r1 r2, goodo 6 o -> good 6 u -> good 6 v -> add_vectors u v = Ok s ->
  shift (A4 o) u = Ok (Some r1) -> shift (A4 r1) v = Ok (Some r2) -> shift (A4 o) s = Ok (Some r2).
Proof. exact L_C17_compose. Qed.
Print Assumptions C17_compose.

(** Shifting back by -v restores a canonical object bit for bit. *)
Theorem C17_undo : forall o u u' r, cgoodo 6 o -> good 6 u -> mul_vector u (T (-1) 0 1) = Ok u' ->
  shift (A4 o) u = Ok (Some r) -> shift (A4 r) u' = Ok (Some o).
Proof. exact L_C17_undo. Qed.
Print Assumptions C17_undo.

Theorem C17_other_ndim : forall a s, match a with A4 _ => False | _ => True end -> shift a s = Ok None.
Proof. exact L_C17_other_ndim. Qed.
Print Assumptions C17_other_ndim.

Example C17_ex :
  let o := [[[T 1 1 2;t0;t0;t0;t0;t0]; [t1;t0;t0;t0;t0;t0]]] in
  let s := [T 1 0 2; t0; t0; T 0 1 1; t0; t0] in
  cgoodo 6 o /\ good 6 s /\ shift (A4 o) s =
    Ok (Some [[[T 2 1 2;t0;t0;T 0 1 1;t0;t0]; [T 3 0 2;t0;t0;T 0 1 1;t0;t0]]]).
Proof. exact E_C17_ex. Qed.

(** C18: the centroid is the exact mean. *)
Theorem C18_mean : forall pts, pts <> [] -> goods 6 pts ->
  evalsv TAU (centroid pts) (mean 6 (map (vals TAU) pts)).
Proof. exact L_C18_mean. Qed.
Print Assumptions C18_mean.

Theorem C18_order : forall pts pts', pts <> [] -> goods 6 pts -> Permutation pts pts' ->
  centroid pts = centroid pts'.
Proof. exact L_C18_order. Qed.
Print Assumptions C18_order.

Theorem C18_translation : forall pts s pts' c, pts <> [] -> goods 6 pts -> good 6 s ->
  Forall2 (fun v v' => add_vectors v s = Ok v') pts pts' -> centroid pts = Ok c ->
  centroid pts' = add_vectors c s.
Proof. exact L_C18_translation. Qed.
Print Assumptions C18_translation.

Theorem C18_symmetry : forall op ctr pts pts' c, In op icosasymop -> pts <> [] -> goods 6 pts -> good 6 ctr ->
  symop_obj op (A3 pts) ctr = Ok (Some (A3 pts')) -> centroid pts = Ok c ->
  centroid pts' = symop_vec op c ctr.
Proof. exact L_C18_symmetry. Qed.
Print Assumptions C18_symmetry.

Theorem C18_empty : centroid [] = Raise ValueError /\ centroid_obj [] = Raise ValueError.
Proof. exact L_C18_empty. Qed.
Print Assumptions C18_empty.

Theorem C18_object : forall o, o <> [] -> Forall (fun t => t <> [] /\ goods 6 t) o ->
  evalsv TAU (centroid_obj o) (mean 6 (map (fun t => mean 6 (map (vals TAU) t)) o)).
Proof. exact L_C18_object. Qed.
Print Assumptions C18_object.

Example C18_ex :
  let p := [[t1;t0;T 0 1 1;t0;t0;t0]; [t0;t1;t0;t0;t0;t0]; [T 1 1 2;t0;t1;t0;t0;t0]] in
  goods 6 p /\ centroid p = Ok [T 3 1 6; T 1 0 3; T 1 1 3; t0; t0; t0].
Proof. exact E_C18_ex. Qed.
