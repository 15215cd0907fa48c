(** Crossing points computed in int64. *)
From Coq Require Import Reals List ZArith.
From Verif Require Import Base.Res Model.Tau Model.Arr Model.Num Model.IcoNumeric Model.IcoIntersect Model.DodeIntersect Model.MachineCross
  Spec.Value Spec.RVec Spec.Shape Spec.Geometry Spec.IcoSpec Spec.DodeSpec Spec.Space Spec.Plane Spec.Grid.
Import ListNotations.
Local Open Scope Z_scope.
From Verif Require Import Proofs.P_MachineCross.
Import ListNotations.

(** Coordinates (a + b tau)/q with |a| + 2|b| <= K: the crossing point of a segment and a
    triangle comes out as in exact arithmetic, including when nothing or an exception does. *)
Theorem C103_same : forall (N : num) (q K : Z) (seg sur : vecs), 1 <= K -> K * K * q <= 437 -> K^7 * q <= 16758000 ->
  length seg = 2%nat -> length sur = 3%nat -> ring_points tau_ring 6 q K seg -> ring_points tau_ring 6 q K sur ->
  m_intersection_segment_surface N seg sur = intersection_segment_surface N seg sur.
Proof. exact L_C103_same. Qed.
Print Assumptions C103_same.

(** So when the float64 test reports a hit and segment and plane are not parallel, the machine
    returns the point of the segment's line in the plane of the triangle, exactly. *)
Theorem C103_point : forall (N : num) (q K : Z) A B C D E (u v t : R), 1 <= K -> K * K * q <= 437 -> K^7 * q <= 16758000 -> ring_points tau_ring 6 q K [A; B; C; D; E] ->
  check_intersection_segment_surface_numerical_6d_tau N [A; B] [C; D; E] = Ok true ->
  triple3 (sub3 (pp B) (pp A)) (sub3 (pp D) (pp C)) (sub3 (pp E) (pp C)) <> 0%R ->
  add3 (pp A) (scale3 t (sub3 (pp B) (pp A))) = add3 (pp C) (add3 (scale3 u (sub3 (pp D) (pp C))) (scale3 v (sub3 (pp E) (pp C)))) ->
  exists p, m_intersection_segment_surface N [A; B] [C; D; E] = Ok (Some p) /\ cgood 6 p /\
    vals TAU p = vadd (vals TAU A) (vscale t (vsub (vals TAU B) (vals TAU A))) /\
    pp p = add3 (pp A) (scale3 t (sub3 (pp B) (pp A))).
Proof. exact L_C103_point. Qed.
Print Assumptions C103_point.

(** The points of which the intersection of two tetrahedra is made are those of exact
    arithmetic. *)
Theorem C103_corners : forall (N : num) (q K : Z) (t1 t2 : vecs), 1 <= K -> K * K * q <= 437 -> K^7 * q <= 16758000 ->
  ring_points tau_ring 6 q K t1 -> ring_points tau_ring 6 q K t2 -> m_collect N t1 t2 = collect N t1 t2.
Proof. exact L_C103_corners. Qed.
Print Assumptions C103_corners.

(** The same for two segments of dode2, for coordinates (a + b sqrt 3)/q. *)
Theorem C104_same : forall (N : num) (q K : Z) (s1 s2 : vecs), 1 <= K -> K * K * q <= 11 ->
  length s1 = 2%nat -> length s2 = 2%nat -> ring_points sqrt3_ring 6 q K s1 -> ring_points sqrt3_ring 6 q K s2 ->
  md_intersection_two_segment N s1 s2 = dintersection_two_segment N s1 s2.
Proof. exact L_C104_same. Qed.
Print Assumptions C104_same.

Theorem C104_point : forall (N : num) (q K : Z) A B C D (t u : R), 1 <= K -> K * K * q <= 11 -> ring_points sqrt3_ring 6 q K [A; B; C; D] ->
  dcheck_intersection_two_segment_numerical_6d_tau N [A; B] [C; D] = Ok true ->
  cross3 (sub3 (dp B) (dp A)) (sub3 (dp D) (dp C)) <> o3 ->
  add3 (dp A) (scale3 t (sub3 (dp B) (dp A))) = add3 (dp C) (scale3 u (sub3 (dp D) (dp C))) ->
  exists p, md_intersection_two_segment N [A; B] [C; D] = Ok (Some p) /\ cgood 6 p /\
    vals SIN p = vadd (vals SIN A) (vscale t (vsub (vals SIN B) (vals SIN A))) /\
    dp p = add3 (dp A) (scale3 t (sub3 (dp B) (dp A))).
Proof. exact L_C104_point. Qed.
Print Assumptions C104_point.

Theorem C104_corners : forall (N : num) (q K : Z) (t1 t2 : vecs), 1 <= K -> K * K * q <= 11 ->
  ring_points sqrt3_ring 6 q K t1 -> ring_points sqrt3_ring 6 q K t2 -> md_collect N t1 t2 = dcollect N t1 t2.
Proof. exact L_C104_corners. Qed.
Print Assumptions C104_corners.

(** A segment and a triangle with coordinates in halves of a + b tau, |a| + 2|b| <= 8. *)
Example C103_ex :
  let seg := [[t0; t0; t0; t0; T (-1) 2 2; T 3 1 2]; [t0; t0; t0; T 0 1 1; t0; t0]] in
  let sur := [[T 0 (-1) 1; T 3 (-2) 2; t0; T (-1) 0 1; T 2 1 2; t0]; [T 0 1 1; T (-1) 1 1; t0; T (-3) (-1) 2; t0; t0]; [T (-3) 0 2; T (-1) (-2) 2; t0; T 3 1 2; t0; T 1 1 2]] in
  8 * 8 * 2 <= 437 /\ 8^7 * 2 <= 16758000 /\ ring_points tau_ring 6 2 8 (seg ++ sur) /\
  check_intersection_segment_surface_numerical_6d_tau Bnum seg sur = Ok true /\
  m_intersection_segment_surface Bnum seg sur = Ok (Some [t0; t0; t0; T (-6481) 5464 13151; T 11756 8893 26302; T 10099 27130 26302]).
Proof. exact E_C103_ex. Qed.

(** Two segments with coordinates 0, 1/2, 1 and sqrt 3/2. *)
Example C104_ex :
  let s1 := [[t0; T 0 (-1) 1; T 0 1 1; t0; T 0 1 1; t0]; [T (-1) 0 2; T 1 0 2; T (-1) 0 1; T 1 0 1; T 0 (-1) 1; t0]] in
  let s2 := [[T (-1) 0 1; T 0 1 1; T (-1) 0 2; T 1 0 1; T (-1) 0 1; t0]; [T 0 1 1; T 0 (-1) 1; t0; T 1 0 1; T (-1) 0 2; t0]] in
  2 * 2 * 2 <= 11 /\ ring_points sqrt3_ring 6 2 2 (s1 ++ s2) /\
  dcheck_intersection_two_segment_numerical_6d_tau Bnum s1 s2 = Ok true /\
  md_intersection_two_segment Bnum s1 s2 = Ok (Some [T (-2) 1 3; T 1 0 6; T (-5) 2 6; T 4 (-2) 3; T 3 (-5) 3; t0]).
Proof. exact E_C104_ex. Qed.

(** Beyond the bounds the point is silently wrong: integer coordinates up to 100 are enough
    for a wrong digit ... *)
Theorem C103_integer_refuted : exists seg sur p p', length seg = 2%nat /\ length sur = 3%nat /\ ring_points tau_ring 6 1 100 (seg ++ sur) /\
  Forall (Forall (fun x => tb x = 0)) (seg ++ sur) /\
  intersection_segment_surface Bnum seg sur = Ok (Some p) /\ m_intersection_segment_surface Bnum seg sur = Ok (Some p') /\ p <> p'.
Proof. exact L_C103_integer_refuted. Qed.
Print Assumptions C103_integer_refuted.

(** ... and with coefficients up to 200 it is off by more than 200. *)
Theorem C103_large_refuted : exists seg sur p p', length seg = 2%nat /\ length sur = 3%nat /\ ring_points tau_ring 6 1 600 (seg ++ sur) /\
  intersection_segment_surface Bnum seg sur = Ok (Some p) /\ m_intersection_segment_surface Bnum seg sur = Ok (Some p') /\
  (200 <= Rabs (val TAU (hd t0 p') - val TAU (hd t0 p)))%R.
Proof. exact L_C103_large_refuted. Qed.
Print Assumptions C103_large_refuted.

(** In dode2 coefficients up to 15 are enough for a point that is off by more than 1/2. *)
Theorem C104_small_refuted : exists s1 s2 p p', length s1 = 2%nat /\ length s2 = 2%nat /\ Forall (Forall (fun x => tc x = 1 /\ Z.abs (ta x) <= 15 /\ Z.abs (tb x) <= 15)) (s1 ++ s2) /\
  dintersection_two_segment Bnum s1 s2 = Ok (Some p) /\ md_intersection_two_segment Bnum s1 s2 = Ok (Some p') /\
  (1/2 <= Rabs (val SIN (hd t0 p') - val SIN (hd t0 p)))%R.
Proof. exact L_C104_small_refuted. Qed.
Print Assumptions C104_small_refuted.

(** Integer coordinates up to 27 are enough for a wrong point. *)
Theorem C104_integer_refuted : exists s1 s2 p p', length s1 = 2%nat /\ length s2 = 2%nat /\ ring_points sqrt3_ring 6 1 27 (s1 ++ s2) /\
  Forall (Forall (fun x => tb x = 0)) (s1 ++ s2) /\
  dintersection_two_segment Bnum s1 s2 = Ok (Some p) /\ md_intersection_two_segment Bnum s1 s2 = Ok (Some p') /\ p <> p'.
Proof. exact L_C104_integer_refuted. Qed.
Print Assumptions C104_integer_refuted.
