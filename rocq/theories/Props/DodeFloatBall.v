(** The test of the bounding circles of dode2/intsct.py in binary64 and the completeness of the
    intersection of dode2 objects that follows: C107, C100.
    Here la is any np.dot and np.linalg.det accurate to the bounds of Spec/LinAlg; C108 says
    which evaluations are.  Examples and refutations use the textbook ones (Bnum). *)
From Coq Require Import Reals List ZArith Lia Lra Bool.
From Flocq Require Import IEEE754.Binary.
From Verif Require Import Base.Res Model.Tau Model.Arr Model.Num Model.Vectors Model.DodeMath1 Model.DodeNumeric Model.DodeIntersect
  Spec.LinAlg Spec.Value Spec.RVec Spec.Shape Spec.DodeSpec Spec.Sets Spec.Space Spec.Tetra Spec.Overlap Spec.Plane Spec.Samples Spec.DodeSamples Spec.Float Spec.PlaneFloat.
Import ListNotations.
Local Open Scope R_scope.
From Verif Require Import Proofs.P_DodeFloatBall.
Import ListNotations.
Local Open Scope R_scope.

(** C107: the radius of an object computed in binary64 reaches every vertex up to the rounding. *)
Theorem C107_radius : forall la, linalg_ok la ->
  forall A o c, tris o -> good 6 c -> 1 <= A <= 1000000 -> (forall v, In v (concat o) -> dgap_ok A v c) ->
  exists r, dball_radius_obj (@Bmath la) (A4 o) c = Ok r /\ is_finite 53 1024 r = true /\ forall t p, In t o -> hull (map dp t) p -> dist3 p (dp c) <= B2R 53 1024 r + A / 10 ^ 14.
Proof. exact L_C107_radius. Qed.
Print Assumptions C107_radius.

(** A triangle that has a point in common with the object passes the test in binary64, unless
    the point lies within A / 10^13 of both circles. *)
Theorem C107_never_discards : forall la, linalg_ok la ->
  forall A t o t2 c1 c2 p, length t = 3%nat -> goods 6 t -> tris o -> In t2 o ->
  dcentroid t = Ok c1 -> dcentroid_obj o = Ok c2 -> dfit_balls A t c1 o c2 ->
  hull (map dp t) p -> hull (map dp t2) p -> ddeep_by (A / 10 ^ 13) t c1 p \/ ddeep_by (A / 10 ^ 13) (concat o) c2 p ->
  exists r, dball_radius_obj (@Bmath la) (A4 o) c2 = Ok r /\ rough_check_intersection_triangle_obj (@Bmath la) t c2 r = Ok true.
Proof. exact L_C107_never_discards. Qed.
Print Assumptions C107_never_discards.

(** C100: so a common point is in the result, or the common part is thin, as soon as some common
    point lies inside one of the circles. *)
Theorem C100_all_kept : forall la, linalg_ok la ->
  forall delaunay o1 o2 r t1 t2 c1 c2 p q A D h B, tris o1 -> tris o2 -> In t1 o1 -> In t2 o2 ->
  triangulates (@Bmath la) delaunay ->
  dintersection (@Bmath la) delaunay false (A4 o1) (A4 o2) = Ok r ->
  fit_pair2 A D h t1 t2 -> neat_pair t1 t2 -> overlaps t1 t2 ->
  dcentroid t1 = Ok c1 -> dcentroid_obj o2 = Ok c2 -> dfit_balls B t1 c1 o2 c2 ->
  hull (map dp t1) q -> hull (map dp t2) q -> ddeep_by (B / 10 ^ 13) t1 c1 q \/ ddeep_by (B / 10 ^ 13) (concat o2) c2 q ->
  hull (map dp t1) p -> hull (map dp t2) p ->
  (exists r', r = Some r' /\ dregion r' p) \/ thin2 t1 t2.
Proof. exact L_C100_all_kept. Qed.
Print Assumptions C100_all_kept.

(** Two triangles with a common vertex, the second the first turned about it and tripled: their
    circles touch, and the computed ones do not. *)
Theorem C107_touching_missed_refuted : exists t t2 c1 c2 r p, length t = 3%nat /\ goods 6 t /\ tris [t2] /\ dcentroid t = Ok c1 /\ dcentroid_obj [t2] = Ok c2 /\
  dfit_balls 60 t c1 [t2] c2 /\ hull (map dp t) p /\ hull (map dp t2) p /\
  dball_radius_obj Bnum (A4 [t2]) c2 = Ok r /\ rough_check_intersection_triangle_obj Bnum t c2 r = Ok false.
Proof. exact L_C107_touching_missed_refuted. Qed.
Print Assumptions C107_touching_missed_refuted.

(** The two overlapping triangles of C100; with them all that C100_all_kept asks for is met. *)
Example C107_ex : dcentroid triA = Ok (pl (T 1 0 3) (T 1 0 3)) /\ dcentroid_obj [triB] = Ok (pl (T 7 0 12) (T 7 0 12)) /\ length triA = 3%nat /\ goods 6 triA /\ tris [triB] /\
  dfit_balls 2 triA (pl (T 1 0 3) (T 1 0 3)) [triB] (pl (T 7 0 12) (T 7 0 12)) /\ hull (map dp triA) (dp (q 1 1)) /\ hull (map dp triB) (dp (q 1 1)) /\
  ddeep_by (2 / 10 ^ 13) triA (pl (T 1 0 3) (T 1 0 3)) (dp (q 1 1)).
Proof. exact E_C107_ex. Qed.

(** The textbook np.dot and np.linalg.det meet the bounds asked of la. *)
Example C107_linalg : linalg_ok textbook.
Proof. exact E_C107_linalg. Qed.
