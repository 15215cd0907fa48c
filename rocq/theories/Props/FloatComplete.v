(** The coplanarity check of ico2/numericalc.py and the completeness of the intersection of
    ico2 objects in binary64: C105, C95.
    Here la is any np.dot and np.linalg.det accurate to the bounds of Spec/LinAlg; C108 says
    which evaluations are.  Examples and refutations use the textbook ones (Bnum). *)
From Coq Require Import Reals List ZArith Lia Lra Bool.
From Verif Require Import Base.Res Model.Tau Model.Arr Model.Num Model.IcoNumeric Model.IcoMath1 Model.IcoIntersect
  Spec.LinAlg Spec.Value Spec.RVec Spec.Shape Spec.IcoSpec Spec.Sets Spec.Space Spec.Tetra Spec.Samples Spec.Region Spec.Overlap Spec.Convex Spec.Float Spec.SpaceFloat.
Import ListNotations.
Local Open Scope R_scope.
From Verif Require Import Proofs.P_FloatComplete.
Import ListNotations.
Local Open Scope R_scope.

(** C105: points taken for coplanar in binary64 lie near one plane, whatever the samples ... *)
Theorem C105_true_near : forall la, linalg_ok la ->
  forall A D draws vs, tame A D vs -> (3 < length vs)%nat ->
  coplanar_check_numeric_tau (@Bmath la) draws vs = Ok (Some true) -> near_plane (flatness A D) (map pp vs).
Proof. exact L_C105_true_near. Qed.
Print Assumptions C105_true_near.

(** ... and exactly coplanar points of small size are never said not to be coplanar. *)
Theorem C105_false_right : forall la, linalg_ok la ->
  forall A D draws vs, tame A D vs -> (3 < length vs)%nat -> (A + D) * D ^ 2 <= 250 ->
  coplanar_check_numeric_tau (@Bmath la) draws vs = Ok (Some false) -> ~ coplanar3 (map pp vs).
Proof. exact L_C105_false_right. Qed.
Print Assumptions C105_false_right.

(** The check never raises. *)
Theorem C105_defined : forall la, linalg_ok la ->
  forall A D draws vs, tame A D vs -> Forall (valid_draw (length vs)) draws ->
  exists r, coplanar_check_numeric_tau (@Bmath la) draws vs = Ok r.
Proof. exact L_C105_defined. Qed.
Print Assumptions C105_defined.

(** A parallelogram with coordinates of at most 20 that is said not to be plane. *)
Theorem C105_coplanar_missed_refuted : exists draws vs, tame 20 90 vs /\ coplanar3 (map pp vs) /\ length vs = 4%nat /\ length draws = 1%nat /\ Forall (valid_draw (length vs)) draws /\
  coplanar_check_numeric_tau Bnum draws vs = Ok (Some false).
Proof. exact L_C105_coplanar_missed_refuted. Qed.
Print Assumptions C105_coplanar_missed_refuted.

(** A parallelogram and a tetrahedron, told apart. *)
Example C105_ex : let sq := [at3 1 0 0 0; at3 1 1 0 0; at3 1 0 1 0; at3 1 1 1 0] in
  tame 1 5 sq /\ tame 1 5 tetP /\ (1 + 5) * 5 ^ 2 <= 250 /\ flatness 1 5 < 1/1000 /\ coplanar3 (map pp sq) /\ Forall (valid_draw (length sq)) [(0, 1, 2)]%nat /\
  coplanar_check_numeric_tau Bnum [(0, 1, 2)]%nat sq = Ok (Some true) /\ coplanar_check_numeric_tau Bnum [(0, 1, 2)]%nat tetP = Ok (Some false).
Proof. exact E_C105_ex. Qed.

(** C95: nothing is lost in binary64.  A common point of two tetrahedra that pass the test of
    the bounding spheres lies in the result, unless their common part is thin. *)
Theorem C95_nothing_lost : forall la, linalg_ok la ->
  forall delaunay draws o1 o2 r t1 t2 p A D A' D', tets o1 -> tets o2 -> In t1 o1 -> In t2 o2 ->
  triangulates3 (@Bmath la) delaunay ->
  intersection (@Bmath la) delaunay draws false (A4 o1) (A4 o2) = Ok r ->
  fit_pair A D t1 t2 -> steep t1 t2 -> steep t2 t1 -> tame_points (@Bmath la) A' D' t1 t2 ->
  (forall c d, centroid_obj o2 = Ok c -> ball_radius_obj (@Bmath la) (A4 o2) c = Ok d -> rough_check_intersection_tetrahedron_obj (@Bmath la) t1 c d = Ok true) ->
  hull (map pp t1) p -> hull (map pp t2) p ->
  (exists r', r = Some r' /\ region r' p) \/ thin_by (flatness A' D') t1 t2.
Proof. exact L_C95_nothing_lost. Qed.
Print Assumptions C95_nothing_lost.

(** The same two tetrahedra as before: the crossing points are of moderate size, the bounding
    spheres overlap, and with a triangulation that covers the hull of any points the result is
    computed; a common part within 3e-4 of a plane would be allowed to be lost. *)
Example C95_complete : exists delaunay draws r, triangulates3 Bnum delaunay /\
  intersection Bnum delaunay draws false (A4 [tetP]) (A4 [tetM]) = Ok (Some r) /\
  tets [tetP] /\ tets [tetM] /\ fit_pair 1 5 tetP tetM /\ steep tetP tetM /\ steep tetM tetP /\ tame_points Bnum 1 5 tetP tetM /\ flatness 1 5 < 3/10000 /\
  (forall c d, centroid_obj [tetM] = Ok c -> ball_radius_obj Bnum (A4 [tetM]) c = Ok d -> rough_check_intersection_tetrahedron_obj Bnum tetP c d = Ok true) /\
  hull (map pp tetP) (pp (at3 4 1 1 1)) /\ hull (map pp tetM) (pp (at3 4 1 1 1)).
Proof. exact E_C95_complete. Qed.

(** The textbook np.dot and np.linalg.det meet the bounds asked of la. *)
Example C105_linalg : linalg_ok textbook.
Proof. exact E_C105_linalg. Qed.
