(** Numerical geometry of ico2/numericalc.py in exact real arithmetic: C26, C29, C30, C31. *)
From Coq Require Import Reals List ZArith Lia Lra Bool Permutation.
From Verif Require Import Base.Res Model.Tau Model.Arr Model.Num Model.IcoNumeric Spec.Value Spec.RVec Spec.Shape
  Spec.IcoSpec Spec.Space.
Import ListNotations.
Local Open Scope R_scope.
From Verif Require Import Proofs.P_Numeric.
Import ListNotations.
Local Open Scope R_scope.

(** C26: three points or fewer are coplanar; the check never raises. *)
Theorem C26_few : forall draws ps, (length ps <= 3)%nat -> coplanar_check_numeric Rnum draws ps = Ok (Some true).
Proof. exact L_C26_few. Qed.
Print Assumptions C26_few.

(** If it answers True, all points lie within 1e-4 of one plane, whatever was drawn. *)
Theorem C26_true_near : forall draws ps, (3 < length ps)%nat -> Forall (valid_draw (length ps)) draws ->
  coplanar_check_numeric Rnum draws ps = Ok (Some true) -> near_plane (1/10000) ps.
Proof. exact L_C26_true_near. Qed.
Print Assumptions C26_true_near.

(** If it answers False, the points are not coplanar. *)
Theorem C26_false_right : forall draws ps, Forall (valid_draw (length ps)) draws ->
  coplanar_check_numeric Rnum draws ps = Ok (Some false) -> ~ coplanar3 ps.
Proof. exact L_C26_false_right. Qed.
Print Assumptions C26_false_right.

(** Neither True nor False exactly when every sampled triple spans a parallelogram
    whose normal vector has all components below 1e-6; the check never raises. *)
Theorem C26_undecided : forall draws ps, (3 < length ps)%nat -> Forall (valid_draw (length ps)) draws ->
  (exists r, coplanar_check_numeric Rnum draws ps = Ok r) /\
  (coplanar_check_numeric Rnum draws ps = Ok None <->
   Forall (fun d => let '(i, j, k) := d in exists pi pj pk x y z, nth_error ps i = Some pi /\ nth_error ps j = Some pj /\
      nth_error ps k = Some pk /\ cross3 (sub3 pj pi) (sub3 pk pi) = (x, y, z) /\
      Rabs x < 1/1000000 /\ Rabs y < 1/1000000 /\ Rabs z < 1/1000000) draws).
Proof. exact L_C26_undecided. Qed.
Print Assumptions C26_undecided.

(** Coplanar points may be left undecided (callers read this as "not coplanar"),
    although another draw would have answered True ... *)
Theorem C26_coplanar_missed_refuted : exists draws draws' ps, coplanar3 ps /\ (3 < length ps)%nat /\ length draws = 5%nat /\
  Forall (valid_draw (length ps)) draws /\ Forall (valid_draw (length ps)) draws' /\
  coplanar_check_numeric Rnum draws ps = Ok None /\ coplanar_check_numeric Rnum draws' ps = Ok (Some true).
Proof. exact L_C26_coplanar_missed_refuted. Qed.
Print Assumptions C26_coplanar_missed_refuted.

(** ... and True does not mean exactly coplanar. *)
Theorem C26_true_not_exact_refuted : exists draws ps, Forall (valid_draw (length ps)) draws /\
  coplanar_check_numeric Rnum draws ps = Ok (Some true) /\ ~ coplanar3 ps.
Proof. exact L_C26_true_not_exact_refuted. Qed.
Print Assumptions C26_true_not_exact_refuted.

(** The TAU-style function applies the check to the perpendicular projections. *)
Theorem C26_tau : forall draws vs, Forall (fun v => length v = 6%nat) vs ->
  coplanar_check_numeric_tau Rnum draws vs = coplanar_check_numeric Rnum draws (map pp vs).
Proof. exact L_C26_tau. Qed.
Print Assumptions C26_tau.

Example C26_ex : valid_draw 4 (0,1,3)%nat /\ coplanar3 [(0,0,0); (1,0,0); (2,0,0); (0,1,0)] /\
  near_plane (1/10000) [(0,0,0); (1,0,0); (2,0,0); (0,1,1/100000)].
Proof. exact E_C26_ex. Qed.

(** C29: exact characterisation.  The point is accepted iff the tetrahedron is not
    flat and the absolute values of its barycentric coordinates add up to less
    than 1 + 1e-6 (they add up to 1 exactly inside). *)
Theorem C29_inside_iff : forall p a b c d,
  inside_outside_tetrahedron Rnum p [a; b; c; d] = Ok true <->
  ~ flat4 a b c d /\ exists ws, bary ws [a; b; c; d] p /\ Rsum (map Rabs ws) < 1 + 1/1000000.
Proof. exact L_C29_inside_iff. Qed.
Print Assumptions C29_inside_iff.

(** Every point of a non-flat closed tetrahedron is accepted. *)
Theorem C29_closed_tetrahedron : forall p a b c d, ~ flat4 a b c d -> hull [a; b; c; d] p ->
  inside_outside_tetrahedron Rnum p [a; b; c; d] = Ok true.
Proof. exact L_C29_closed_tetrahedron. Qed.
Print Assumptions C29_closed_tetrahedron.

(** A point that is accepted has no barycentric coordinate below -5e-7; a point with
    such a coordinate is rejected. *)
Theorem C29_far_rejected : forall p a b c d ws w, bary ws [a; b; c; d] p -> In w ws -> w <= - (1/2000000) ->
  inside_outside_tetrahedron Rnum p [a; b; c; d] = Ok false.
Proof. exact L_C29_far_rejected. Qed.
Print Assumptions C29_far_rejected.

(** A flat tetrahedron contains nothing, not even its own vertices. *)
Theorem C29_flat : forall p a b c d, flat4 a b c d -> inside_outside_tetrahedron Rnum p [a; b; c; d] = Ok false.
Proof. exact L_C29_flat. Qed.
Print Assumptions C29_flat.

(** The order of the vertices does not matter. *)
Theorem C29_order : forall p t t', length t = 4%nat -> Permutation t t' ->
  inside_outside_tetrahedron Rnum p t = inside_outside_tetrahedron Rnum p t'.
Proof. exact L_C29_order. Qed.
Print Assumptions C29_order.

(** The TAU-style function tests the perpendicular projections. *)
Theorem C29_tau : forall v t, length v = 6%nat -> Forall (fun u => length u = 6%nat) t ->
  inside_outside_tetrahedron_tau Rnum v t = inside_outside_tetrahedron Rnum (pp v) (map pp t).
Proof. exact L_C29_tau. Qed.
Print Assumptions C29_tau.

Example C29_ex : ~ flat4 (0,0,0) (1,0,0) (0,1,0) (0,0,1) /\ hull [(0,0,0); (1,0,0); (0,1,0); (0,0,1)] (1/4,1/4,1/2) /\
  bary [-1; 1; 1; 0] [(0,0,0); (1,0,0); (0,1,0); (0,0,1)] (1,1,0).
Proof. exact E_C29_ex. Qed.

(** C30: True exactly when no tetrahedron of the object contains the point. *)
Theorem C30_inverted : forall p o, Forall (fun t => length t = 4%nat) o ->
  exists r, inside_outside_obj Rnum p o = Ok r /\
    (r = true <-> forall t, In t o -> inside_outside_tetrahedron Rnum p t = Ok false).
Proof. exact L_C30_inverted. Qed.
Print Assumptions C30_inverted.

(** So the documented answer (True = inside) is wrong for every point of every
    non-flat tetrahedron of the object. *)
Theorem C30_contract_refuted : forall p o a b c d, Forall (fun t => length t = 4%nat) o -> In [a; b; c; d] o ->
  ~ flat4 a b c d -> hull [a; b; c; d] p -> inside_outside_obj Rnum p o = Ok false.
Proof. exact L_C30_contract_refuted. Qed.
Print Assumptions C30_contract_refuted.

(** The TAU-style wrapper raises on every argument. *)
Theorem C30_wrapper_raises : forall v o, exists e, inside_outside_obj_tau v o = Raise e.
Proof. exact L_C30_wrapper_raises. Qed.
Print Assumptions C30_wrapper_raises.

Example C30_ex : Forall (fun t : list R3 => length t = 4%nat) [[(0,0,0); (1,0,0); (0,1,0); (0,0,1)]] /\
  inside_outside_obj Rnum (1/4,1/4,1/2) [[(0,0,0); (1,0,0); (0,1,0); (0,0,1)]] = Ok false.
Proof. exact E_C30_ex. Qed.

(** C31: exact characterisation of the segment/triangle test. *)
Theorem C31_iff : forall a b c d e,
  check_intersection_segment_surface_numerical Rnum [a; b] [c; d; e] = Ok true <->
  1/1000000 <= Rabs (triple3 (sub3 b a) (sub3 d c) (sub3 e c)) /\
  exists u v t, add3 a (scale3 t (sub3 b a)) = add3 c (add3 (scale3 u (sub3 d c)) (scale3 v (sub3 e c))) /\
    - (1/1000000) <= u <= 1 + 1/1000000 /\ - (1/1000000) <= v /\ u + v <= 1 + 1/1000000 /\
    - (1/1000000) <= t <= 1 + 1/1000000.
Proof. exact L_C31_iff. Qed.
Print Assumptions C31_iff.

(** A common point of the closed segment and the closed triangle is never missed,
    unless the two are nearly parallel. *)
Theorem C31_never_missed : forall a b c d e p, hull [a; b] p -> hull [c; d; e] p ->
  1/1000000 <= Rabs (triple3 (sub3 b a) (sub3 d c) (sub3 e c)) ->
  check_intersection_segment_surface_numerical Rnum [a; b] [c; d; e] = Ok true.
Proof. exact L_C31_never_missed. Qed.
Print Assumptions C31_never_missed.

(** A (nearly) parallel pair is always reported as not intersecting. *)
Theorem C31_parallel : forall a b c d e, Rabs (triple3 (sub3 b a) (sub3 d c) (sub3 e c)) < 1/1000000 ->
  check_intersection_segment_surface_numerical Rnum [a; b] [c; d; e] = Ok false.
Proof. exact L_C31_parallel. Qed.
Print Assumptions C31_parallel.

Theorem C31_tau : forall s t, Forall (fun u => length u = 6%nat) s -> Forall (fun u => length u = 6%nat) t ->
  check_intersection_segment_surface_numerical_6d_tau Rnum s t =
  check_intersection_segment_surface_numerical Rnum (map pp s) (map pp t).
Proof. exact L_C31_tau. Qed.
Print Assumptions C31_tau.

Example C31_ex : hull [(0,0,-1); (0,0,1)] (0,0,0) /\ hull [(-1,-1,0); (2,-1,0); (-1,2,0)] (0,0,0) /\
  1/1000000 <= Rabs (triple3 (sub3 (0,0,1) (0,0,-1)) (sub3 (2,-1,0) (-1,-1,0)) (sub3 (-1,2,0) (-1,-1,0))).
Proof. exact E_C31_ex. Qed.
