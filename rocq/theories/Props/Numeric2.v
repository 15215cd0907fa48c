(** The remaining numerical tests of ico2/numericalc.py and dode2/numericalc.py in exact
    real arithmetic ([Rnum]): C76, C77, C78, C81. *)
From Coq Require Import Reals List ZArith Lia Lra Bool.
From Verif Require Import Base.Res Model.Tau Model.Arr Model.Num Model.IcoMath1 Model.IcoVolume Model.IcoNumeric Model.DodeMath1 Model.DodeArea Model.DodeNumeric Model.DodeIntersect Model.Numeric2
  Spec.Value Spec.RVec Spec.Shape Spec.IcoSpec Spec.DodeSpec Spec.Sets Spec.Space Spec.Plane Spec.Samples Spec.DodeSamples.
Import ListNotations.
Local Open Scope R_scope.
From Verif Require Import Proofs.P_Numeric2.
Import ListNotations.
Local Open Scope R_scope.

(** C76: the test of whether a point lies on a triangle compares areas: it answers True
    exactly if the three triangles formed with the point exceed the triangle by less than
    1e-6 in area.  It never raises on 6-d points, in any arithmetic. *)
Theorem C76_iff : forall v a b c, goods 6 [v; a; b; c] ->
  (on_out_surface Rnum v [a; b; c] = Ok true <->
   tri_area (pp v) (pp b) (pp c) + tri_area (pp a) (pp v) (pp c) + tri_area (pp a) (pp b) (pp v) < tri_area (pp a) (pp b) (pp c) + 1/1000000) /\
  (don_out_surface Rnum v [a; b; c] = Ok true <->
   tri_area (dp v) (dp b) (dp c) + tri_area (dp a) (dp v) (dp c) + tri_area (dp a) (dp b) (dp v) < tri_area (dp a) (dp b) (dp c) + 1/1000000).
Proof. exact L_C76_iff. Qed.
Print Assumptions C76_iff.

Theorem C76_total : forall N v a b c, goods 6 [v; a; b; c] ->
  (exists r, on_out_surface N v [a; b; c] = Ok r) /\ (exists r, don_out_surface N v [a; b; c] = Ok r).
Proof. exact L_C76_total. Qed.
Print Assumptions C76_total.

(** Every point of the closed triangle passes, degenerate triangles included. *)
Theorem C76_closed_triangle : forall v a b c, goods 6 [v; a; b; c] ->
  (hull (map pp [a; b; c]) (pp v) -> on_out_surface Rnum v [a; b; c] = Ok true) /\
  (hull (map dp [a; b; c]) (dp v) -> don_out_surface Rnum v [a; b; c] = Ok true).
Proof. exact L_C76_closed_triangle. Qed.
Print Assumptions C76_closed_triangle.

(** A point of the plane of the triangle with barycentric coordinates ws passes exactly if
    the sum of their absolute values exceeds 1 by less than 1e-6 divided by the area: an
    absolute tolerance. *)
Theorem C76_plane : forall v a b c ws, goods 6 [v; a; b; c] ->
  (bary ws (map pp [a; b; c]) (pp v) ->
   (on_out_surface Rnum v [a; b; c] = Ok true <-> (Rsum (map Rabs ws) - 1) * tri_area (pp a) (pp b) (pp c) < 1/1000000)) /\
  (bary ws (map dp [a; b; c]) (dp v) ->
   (don_out_surface Rnum v [a; b; c] = Ok true <-> (Rsum (map Rabs ws) - 1) * tri_area (dp a) (dp b) (dp c) < 1/1000000)).
Proof. exact L_C76_plane. Qed.
Print Assumptions C76_plane.

Theorem C76_height : forall v a b c n, goods 6 [v; a; b; c] -> norm3 n = 1 ->
  let bound := fun p a b c => dot3 n (sub3 b a) = 0 -> dot3 n (sub3 c a) = 0 ->
    let h := dot3 n (sub3 p a) in let P := dist3 b c + dist3 c a + dist3 a b in let S := tri_area a b c in
    (h * P / 2) * (h * P / 2) < 2 * S * (1/1000000) + (1/1000000) * (1/1000000) in
  (on_out_surface Rnum v [a; b; c] = Ok true -> bound (pp v) (pp a) (pp b) (pp c)) /\
  (don_out_surface Rnum v [a; b; c] = Ok true -> bound (dp v) (dp a) (dp b) (dp c)).
Proof. exact L_C76_height. Qed.
Print Assumptions C76_height.

(** So a small triangle accepts points far outside: here the point has barycentric
    coordinates -999, 1000, 0. *)
Theorem C76_small_refuted : exists v a b c, goods 6 [v; a; b; c] /\ ~ flat3 (dp a) (dp b) (dp c) /\ level 0 [v; a; b; c] /\
  bary [-999; 1000; 0] (map dp [a; b; c]) (dp v) /\ don_out_surface Rnum v [a; b; c] = Ok true.
Proof. exact L_C76_small_refuted. Qed.
Print Assumptions C76_small_refuted.

(** ... and a triangle of ordinary size accepts points well off its plane: with the
    triangle (0,0), (1,0), (0,1) and 1e-6 in area the point may be 5e-4 away. *)
Theorem C76_off_plane_refuted : exists v a b c n, goods 6 [v; a; b; c] /\ dp a = (0,0,0) /\ dp b = (1,0,0) /\ dp c = (0,1,0) /\
  norm3 n = 1 /\ dot3 n (sub3 (dp b) (dp a)) = 0 /\ dot3 n (sub3 (dp c) (dp a)) = 0 /\ dot3 n (sub3 (dp v) (dp a)) = 5/10000 /\
  don_out_surface Rnum v [a; b; c] = Ok true.
Proof. exact L_C76_off_plane_refuted. Qed.
Print Assumptions C76_off_plane_refuted.

Example C76_ex : goods 6 [q 1 1; o6; x2; x3] /\ hull (map dp [o6; x2; x3]) (dp (q 1 1)) /\
  on_out_surface Bnum x1 [x1; x2; x4] = Ok true /\ on_out_surface Bnum x3 [x1; x2; x4] = Ok false /\
  don_out_surface Bnum (q 1 1) triA = Ok true /\ don_out_surface Bnum (q 1 5) triA = Ok false.
Proof. exact E_C76_ex. Qed.

(** C77: the point-on-segment test.  Both packages apply one test to the perpendicular
    projections. *)
Theorem C77_tau : forall v a b, goods 6 [v; a; b] ->
  point_on_segment Rnum v [a; b] = Ok (on_segment Rnum (pp v) (pp a) (pp b)) /\
  dpoint_on_segment Rnum v [a; b] = Ok (on_segment Rnum (dp v) (dp a) (dp b)).
Proof. exact L_C77_tau. Qed.
Print Assumptions C77_tau.

(** On the line through a and b: exactly the points of the closed segment, and points
    before a at a distance d <= |ab| with 2 d |ab| < 1e-6. *)
Theorem C77_line : forall a b s, a <> b ->
  let p := add3 a (scale3 s (sub3 b a)) in
  on_segment Rnum p a b = true <-> 0 <= s <= 1 \/ (-1 <= s < 0 /\ 2 * dist3 p a * dist3 b a < 1/1000000).
Proof. exact L_C77_line. Qed.
Print Assumptions C77_line.

Theorem C77_closed_segment : forall a b p, a <> b -> hull [a; b] p -> on_segment Rnum p a b = true.
Proof. exact L_C77_closed_segment. Qed.
Print Assumptions C77_closed_segment.

Theorem C77_degenerate : forall a p, on_segment Rnum p a a = false.
Proof. exact L_C77_degenerate. Qed.
Print Assumptions C77_degenerate.

(** Whatever passes lies within sqrt(2e-6) of the segment, and no farther from a than b is. *)
Theorem C77_near : forall a b p, on_segment Rnum p a b = true ->
  a <> b /\ dist3 p a <= dist3 b a /\ exists x, hull [a; b] x /\ dist3 p x * dist3 p x < 2/1000000.
Proof. exact L_C77_near. Qed.
Print Assumptions C77_near.

(** The tolerance is not 1e-6 in distance: (0.999, 0.001) is accepted for the segment from
    (0,0) to (1,0), although it is more than 9e-4 away from all its points. *)
Theorem C77_tolerance_refuted : exists v a b, goods 6 [v; a; b] /\ dpoint_on_segment Rnum v [a; b] = Ok true /\
  forall x, hull (map dp [a; b]) x -> 9/10000 < dist3 (dp v) x.
Proof. exact L_C77_tolerance_refuted. Qed.
Print Assumptions C77_tolerance_refuted.

Example C77_ex : goods 6 [pl (T 1 0 2) (T 0 0 1); o6; x2] /\ dp o6 <> dp x2 /\ hull [dp o6; dp x2] (dp (pl (T 1 0 2) (T 0 0 1))) /\
  dpoint_on_segment Bnum (pl (T 1 0 2) (T 0 0 1)) [o6; x2] = Ok true /\ dpoint_on_segment Bnum (q 1 1) [o6; x2] = Ok false /\
  point_on_segment Bnum x1 [o6; iv [2;0;0;0;0;0]%Z] = Ok true /\ point_on_segment Bnum x2 [o6; x1] = Ok false.
Proof. exact E_C77_ex. Qed.

(** C78: the numerical projections, areas and volumes are the exact ones.  In exact
    arithmetic the floating-point versions return the number that the exact (TAU-style)
    result denotes. *)
Theorem C78_projection : forall v, good 6 v -> exists e i x y z x' y' z',
  projection v = Ok (e, i) /\ projection_numerical Rnum (numerical_vector Rnum v) = Ok ((x, y, z), (x', y', z')) /\
  vals TAU e = [x; y; z] /\ vals TAU i = [x'; y'; z'].
Proof. exact L_C78_projection. Qed.
Print Assumptions C78_projection.

Theorem C78_dprojection : forall v, good 6 v -> exists e i x y z x' y' z',
  dprojection v = Ok (e, i) /\ dprojection_numerical Rnum (dnumerical_vector Rnum v) = Ok ((x, y, z), (x', y', z')) /\
  vals SIN e = [x; y; z] /\ vals SIN i = [x'; y'; z'].
Proof. exact L_C78_dprojection. Qed.
Print Assumptions C78_dprojection.

Theorem C78_volume : forall o, tets o -> exists v, obj_volume_6d (A4 o) = Ok (Some v) /\ obj_volume_6d_numerical Rnum o = Ok (val TAU v).
Proof. exact L_C78_volume. Qed.
Print Assumptions C78_volume.

Theorem C78_tetrahedron : forall t, length t = 4%nat -> goods 6 t ->
  exists v, tetrahedron_volume_6d (A3 t) = Ok (Some v) /\ tetrahedron_volume_6d_numerical Rnum t = Ok (val TAU v).
Proof. exact L_C78_tetrahedron. Qed.
Print Assumptions C78_tetrahedron.

(** For dodecagonal objects this needs the triangles to lie in planes z = const of the
    3-d coordinates (the sixth coordinate constant along a triangle). *)
Theorem C78_area : forall o, tris o -> Forall (fun t => exists h, level h t) o ->
  exists v, obj_area_6d (A4 o) = Ok (Some v) /\ dobj_volume_6d_numerical Rnum o = Ok (val SIN v).
Proof. exact L_C78_area. Qed.
Print Assumptions C78_area.

(** Otherwise the numerical function measures the inclined triangle and the exact one its
    projection on the plane. *)
Theorem C78_area_inclined_refuted : exists t v, length t = 3%nat /\ goods 6 t /\
  triangle_area_6d (A3 t) = Ok (Some v) /\ val SIN v = 0 /\ triangle_volume_6d_numerical Rnum t = Ok (1/2).
Proof. exact L_C78_area_inclined_refuted. Qed.
Print Assumptions C78_area_inclined_refuted.

(** The area of a triangle given by three 3-d points, and the volumes of objects given by
    3-d points. *)
Theorem C78_triangle_area : forall a b c : tau * tau * tau,
  let row (p : tau * tau * tau) := [fst (fst p); snd (fst p); snd p] in
  let at_ w (p : tau * tau * tau) : R3 := (val w (fst (fst p)), val w (snd (fst p)), val w (snd p)) in
  Numeric2.triangle_area Rnum (map row [a; b; c]) = Ok (tri_area (at_ TAU a) (at_ TAU b) (at_ TAU c)) /\
  dtriangle_area Rnum (map row [a; b; c]) = Ok (tri_area (at_ SIN a) (at_ SIN b) (at_ SIN c)).
Proof. exact L_C78_triangle_area. Qed.
Print Assumptions C78_triangle_area.

Theorem C78_points : forall ts : list (R3 * R3 * R3 * R3),
  obj_volume_numerical Rnum (map (fun '(a, b, c, d) => [a; b; c; d]) ts) = Ok (Rsum (map (fun '(a, b, c, d) => vol3 a b c d) ts)).
Proof. exact L_C78_points. Qed.
Print Assumptions C78_points.

Example C78_ex : good 6 x1 /\ tets [[o6; x1; x2; x3]] /\ tris [triA; triB] /\ Forall (fun t => exists h, level h t) [triA; triB] /\
  obj_volume_6d (A4 [[o6; x1; x2; x3]]) <> Ok (Some t0) /\ obj_area_6d (A4 [triA; triB]) <> Ok (Some t0).
Proof. exact E_C78_ex. Qed.

(** C81: functions of the two numericalc modules that cannot be used.  Two segments have
    two end points each, but the third row of the second is read. *)
Theorem C81_two_segments : forall N (a b c d : pt N), check_intersection_two_segment_numerical N [a; b] [c; d] = Raise IndexError.
Proof. exact L_C81_two_segments. Qed.
Print Assumptions C81_two_segments.

(** dode2 inside_outside_obj looks up a name that is not defined as soon as the object has
    a triangle; for the empty object every point counts as inside. *)
Theorem C81_inside_obj : forall N p o, (o <> [] -> dinside_outside_obj N p o = Raise NameError) /\ dinside_outside_obj N p [] = Ok true.
Proof. exact L_C81_inside_obj. Qed.
Print Assumptions C81_inside_obj.

Theorem C81_inside_obj_tau : forall v a, exists e, dinside_outside_obj_tau v a = Raise e.
Proof. exact L_C81_inside_obj_tau. Qed.
Print Assumptions C81_inside_obj_tau.

Example C81_ex : [triA] <> [] /\ dinside_outside_obj Rnum o3 [map dp triA] = Raise NameError.
Proof. exact E_C81_ex. Qed.
