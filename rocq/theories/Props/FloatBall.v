(** The test of the bounding spheres of ico2/intsct.py in binary64 and the completeness of the
    intersection of ico2 objects that follows: C106, C95.
    Here la is any np.dot and np.linalg.det accurate to the bounds of Spec/LinAlg; C108 says
    which evaluations are.  Examples and refutations use the textbook ones (Bnum). *)
From Coq Require Import Reals List ZArith Lia Lra Bool.
From Flocq Require Import IEEE754.Binary.
From Verif Require Import Base.Res Model.Tau Model.Arr Model.Num Model.Vectors Model.IcoNumeric Model.IcoMath1 Model.IcoIntersect
  Spec.LinAlg Spec.Value Spec.RVec Spec.Shape Spec.IcoSpec Spec.Sets Spec.Space Spec.Tetra Spec.Samples Spec.Region Spec.Overlap Spec.Convex Spec.Float Spec.SpaceFloat.
Import ListNotations.
Local Open Scope R_scope.
From Verif Require Import Proofs.P_FloatBall.
Import ListNotations.
Local Open Scope R_scope.

(** C106: the radius of an object computed in binary64 reaches every vertex up to the rounding. *)
Theorem C106_radius : forall la, linalg_ok la ->
  forall A o c, tets o -> good 6 c -> 1 <= A <= 1000000 -> (forall v, In v (concat o) -> gap_ok A v c) ->
  exists r, ball_radius_obj (@Bmath la) (A4 o) c = Ok r /\ is_finite 53 1024 r = true /\ forall t p, In t o -> hull (map pp t) p -> dist3 p (pp c) <= B2R 53 1024 r + A / 10 ^ 14.
Proof. exact L_C106_radius. Qed.
Print Assumptions C106_radius.

(** A tetrahedron that has a point in common with the object passes the test in binary64, unless
    the point lies within A / 10^13 of both spheres. *)
Theorem C106_never_discards : forall la, linalg_ok la ->
  forall A t o t2 c1 c2 p, length t = 4%nat -> goods 6 t -> tets o -> In t2 o ->
  centroid t = Ok c1 -> centroid_obj o = Ok c2 -> fit_balls A t c1 o c2 ->
  hull (map pp t) p -> hull (map pp t2) p -> deep_by (A / 10 ^ 13) t c1 p \/ deep_by (A / 10 ^ 13) (concat o) c2 p ->
  exists r, ball_radius_obj (@Bmath la) (A4 o) c2 = Ok r /\ rough_check_intersection_tetrahedron_obj (@Bmath la) t c2 r = Ok true.
Proof. exact L_C106_never_discards. Qed.
Print Assumptions C106_never_discards.

(** C95: so a common point is in the result, or the common part is thin, as soon as some common
    point lies inside one of the spheres. *)
Theorem C95_all_kept : forall la, linalg_ok la ->
  forall delaunay draws o1 o2 r t1 t2 c1 c2 p q A D A' D' B, tets o1 -> tets o2 -> In t1 o1 -> In t2 o2 ->
  triangulates3 (@Bmath la) delaunay ->
  intersection (@Bmath la) delaunay draws false (A4 o1) (A4 o2) = Ok r ->
  fit_pair A D t1 t2 -> steep t1 t2 -> steep t2 t1 -> tame_points (@Bmath la) A' D' t1 t2 ->
  centroid t1 = Ok c1 -> centroid_obj o2 = Ok c2 -> fit_balls B t1 c1 o2 c2 ->
  hull (map pp t1) q -> hull (map pp t2) q -> deep_by (B / 10 ^ 13) t1 c1 q \/ deep_by (B / 10 ^ 13) (concat o2) c2 q ->
  hull (map pp t1) p -> hull (map pp t2) p ->
  (exists r', r = Some r' /\ region r' p) \/ thin_by (flatness A' D') t1 t2.
Proof. exact L_C95_all_kept. Qed.
Print Assumptions C95_all_kept.

(** Two tetrahedra with a common vertex, the second the first turned about it and doubled: their
    spheres touch, and the computed ones do not. *)
Theorem C106_touching_missed_refuted : exists t t2 c1 c2 r p, length t = 4%nat /\ goods 6 t /\ tets [t2] /\ centroid t = Ok c1 /\ centroid_obj [t2] = Ok c2 /\
  fit_balls 60 t c1 [t2] c2 /\ hull (map pp t) p /\ hull (map pp t2) p /\
  ball_radius_obj Bnum (A4 [t2]) c2 = Ok r /\ rough_check_intersection_tetrahedron_obj Bnum t c2 r = Ok false.
Proof. exact L_C106_touching_missed_refuted. Qed.
Print Assumptions C106_touching_missed_refuted.

(** Two overlapping tetrahedra whose common point is the centre of the first. *)
Example C106_ex : centroid tetP = Ok (at3 4 1 1 1) /\ centroid_obj [tetM] = Ok (at3 1 0 0 0) /\ length tetP = 4%nat /\ goods 6 tetP /\ tets [tetM] /\
  fit_balls 2 tetP (at3 4 1 1 1) [tetM] (at3 1 0 0 0) /\ hull (map pp tetP) (pp (at3 4 1 1 1)) /\ hull (map pp tetM) (pp (at3 4 1 1 1)) /\
  deep_by (2 / 10 ^ 13) tetP (at3 4 1 1 1) (pp (at3 4 1 1 1)).
Proof. exact E_C106_ex. Qed.

(** All that C95_all_kept asks for is met by these two tetrahedra. *)
Example C95_kept : exists delaunay draws r, triangulates3 Bnum delaunay /\ intersection Bnum delaunay draws false (A4 [tetP]) (A4 [tetM]) = Ok (Some r) /\
  tets [tetP] /\ tets [tetM] /\ fit_pair 1 5 tetP tetM /\ steep tetP tetM /\ steep tetM tetP /\ tame_points Bnum 1 5 tetP tetM /\
  centroid tetP = Ok (at3 4 1 1 1) /\ centroid_obj [tetM] = Ok (at3 1 0 0 0) /\ fit_balls 2 tetP (at3 4 1 1 1) [tetM] (at3 1 0 0 0) /\
  hull (map pp tetP) (pp (at3 4 1 1 1)) /\ hull (map pp tetM) (pp (at3 4 1 1 1)) /\ deep_by (2 / 10 ^ 13) tetP (at3 4 1 1 1) (pp (at3 4 1 1 1)).
Proof. exact E_C95_kept. Qed.

(** The textbook np.dot and np.linalg.det meet the bounds asked of la. *)
Example C106_linalg : linalg_ok textbook.
Proof. exact E_C106_linalg. Qed.
