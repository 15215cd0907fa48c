(** What the geometric tests of ico2/numericalc.py and the intersection of ico2 objects
    give in binary64: C93, C94, C95.
    Here la is any np.dot and np.linalg.det accurate to the bounds of Spec/LinAlg; C108 says
    which evaluations are.  Examples and refutations use the textbook ones (Bnum). *)
From Coq Require Import Reals List ZArith Lia Lra Bool.
From Flocq Require Import IEEE754.Binary.
From Verif Require Import Base.Res Model.Tau Model.Arr Model.Num Model.IcoNumeric Model.IcoMath1 Model.IcoIntersect
  Spec.LinAlg Spec.Value Spec.RVec Spec.Shape Spec.IcoSpec Spec.Sets Spec.Space Spec.Tetra Spec.Samples Spec.Region Spec.Overlap Spec.Convex Spec.Float.
Import ListNotations.
Local Open Scope R_scope.
From Verif Require Import Proofs.P_Float.
Import ListNotations.
Local Open Scope R_scope.

(** C93: the perpendicular coordinates computed from exact numbers of size A are finite and
    off by at most 10 A / 2^51. *)
Theorem C93_projection : forall (la : linalg) A v, 1 <= A <= 1000000 -> coefs A v -> exists x y z p q r, internal (@Bmath la) v = Ok (x, y, z) /\ pp v = (p, q, r) /\
  is_finite 53 1024 x = true /\ is_finite 53 1024 y = true /\ is_finite 53 1024 z = true /\
  Rabs (B2R 53 1024 x - p) <= 10 * A / 2^51 /\ Rabs (B2R 53 1024 y - q) <= 10 * A / 2^51 /\ Rabs (B2R 53 1024 z - r) <= 10 * A / 2^51.
Proof. exact L_C93_projection. Qed.
Print Assumptions C93_projection.

(** Every point of a closed tetrahedron is accepted ... *)
Theorem C93_inside : forall la, linalg_ok la ->
  forall A D v t, tame A D (v :: t) -> length t = 4%nat -> plump A D t ->
  hull (map pp t) (pp v) -> inside_outside_tetrahedron_tau (@Bmath la) v t = Ok true.
Proof. exact L_C93_inside. Qed.
Print Assumptions C93_inside.

(** ... and every point with a barycentric coordinate of at most -1e-6 is rejected. *)
Theorem C93_outside : forall la, linalg_ok la ->
  forall A D v t ws w, tame A D (v :: t) -> length t = 4%nat -> plump A D t ->
  bary ws (map pp t) (pp v) -> In w ws -> w <= - (1/1000000) -> inside_outside_tetrahedron_tau (@Bmath la) v t = Ok false.
Proof. exact L_C93_outside. Qed.
Print Assumptions C93_outside.

(** Far from the origin the same test rejects points of the tetrahedron: the midpoint of an
    edge of a tetrahedron of ordinary size moved by 1e11 lattice steps. *)
Theorem C93_large_refuted : exists v t, coefs 200000000000 v /\ length t = 4%nat /\ Forall (coefs 200000000000) t /\ spread 5 (map pp t) /\ 1/10 <= pvol t /\
  hull (map pp t) (pp v) /\ inside_outside_tetrahedron_tau Bnum v t = Ok false.
Proof. exact L_C93_large_refuted. Qed.
Print Assumptions C93_large_refuted.

(** C94: a segment exactly parallel to the triangle never meets it. *)
Theorem C94_parallel : forall la, linalg_ok la ->
  forall A D a b c d e, tame A D [a; b; c; d; e] -> incline a b c d e = 0 ->
  check_intersection_segment_surface_numerical_6d_tau (@Bmath la) [a; b] [c; d; e] = Ok false.
Proof. exact L_C94_parallel. Qed.
Print Assumptions C94_parallel.

(** A segment that crosses the triangle is always recognised ... *)
Theorem C94_meets : forall la, linalg_ok la ->
  forall A D a b c d e p, tame A D [a; b; c; d; e] ->
  (A + D) * D ^ 2 <= 200000 * Rabs (incline a b c d e) -> 12/10000000 <= Rabs (incline a b c d e) ->
  hull (map pp [a; b]) p -> hull (map pp [c; d; e]) p ->
  check_intersection_segment_surface_numerical_6d_tau (@Bmath la) [a; b] [c; d; e] = Ok true.
Proof. exact L_C94_meets. Qed.
Print Assumptions C94_meets.

(** ... and one that is recognised has a point within 2e-6 of both, in barycentric coordinates. *)
Theorem C94_sound : forall la, linalg_ok la ->
  forall A D a b c d e, tame A D [a; b; c; d; e] -> sharp A D [a; b] [c; d; e] ->
  check_intersection_segment_surface_numerical_6d_tau (@Bmath la) [a; b] [c; d; e] = Ok true ->
  exists p, near (2/1000000) (map pp [a; b]) p /\ near (2/1000000) (map pp [c; d; e]) p.
Proof. exact L_C94_sound. Qed.
Print Assumptions C94_sound.

(** C95: two tetrahedra with a common point are never classified as disjoint. *)
Theorem C95_class : forall la, linalg_ok la ->
  forall A D t1 t2 p, fit_pair A D t1 t2 -> steep t1 t2 -> steep t2 t1 -> tets [t1; t2] ->
  hull (map pp t1) p -> hull (map pp t2) p -> exists k, check_intersection_two_tetrahedron_4 (@Bmath la) t1 t2 = Ok k /\ (k = 1 \/ k = 2 \/ k = 3)%Z.
Proof. exact L_C95_class. Qed.
Print Assumptions C95_class.

(** Every point of an intersection computed in binary64 lies in a tetrahedron of each object
    up to 2e-6 in barycentric coordinates, whatever the triangulation and the samples. *)
Theorem C95_sound : forall la, linalg_ok la ->
  forall delaunay draws o1 o2 r p, tets o1 -> tets o2 ->
  (forall t1 t2, In t1 o1 -> In t2 o2 -> exists A D, fit_pair A D t1 t2) ->
  intersection (@Bmath la) delaunay draws false (A4 o1) (A4 o2) = Ok (Some r) -> region r p ->
  exists t1 t2, In t1 o1 /\ In t2 o2 /\ near (2/1000000) (map pp t1) p /\ near (2/1000000) (map pp t2) p.
Proof. exact L_C95_sound. Qed.
Print Assumptions C95_sound.

(** If no vertex and no crossing point lies within 2e-6 outside, the result lies exactly in
    both objects. *)
Theorem C95_sound_exact : forall la, linalg_ok la ->
  forall delaunay draws o1 o2 r p, tets o1 -> tets o2 ->
  (forall t1 t2, In t1 o1 -> In t2 o2 -> (exists A D, fit_pair A D t1 t2) /\ clear2_pair t1 t2 /\ clear2_pair t2 t1) ->
  intersection (@Bmath la) delaunay draws false (A4 o1) (A4 o2) = Ok (Some r) -> region r p -> region o1 p /\ region o2 p.
Proof. exact L_C95_sound_exact. Qed.
Print Assumptions C95_sound_exact.

(** Two tetrahedra that partly overlap, neither containing the other: the hypotheses of C93,
    C94 and C95 hold, the centroid of the first is inside it and lies in both, an edge of the second meets a
    face of the first, and the class is 3. *)
Example C95_ex : tets [tetP] /\ tets [tetM] /\ fit_pair 1 5 tetP tetM /\ steep tetP tetM /\ steep tetM tetP /\ clear2_pair tetP tetM /\ clear2_pair tetM tetP /\
  tame 1 5 (at3 4 1 1 1 :: tetP) /\ hull (map pp tetP) (pp (at3 4 1 1 1)) /\ hull (map pp tetM) (pp (at3 4 1 1 1)) /\
  bary [-2; 1; 1; 1] (map pp tetP) (pp (at3 1 1 1 1)) /\
  edge_of [at3 4 1 1 1; at3 4 (-3) 1 1] tetM /\ face_of [at3 1 0 0 0; at3 1 0 1 0; at3 1 0 0 1] tetP /\
  Rabs (incline (at3 4 1 1 1) (at3 4 (-3) 1 1) (at3 1 0 0 0) (at3 1 0 1 0) (at3 1 0 0 1)) >= 1/1000 /\
  check_intersection_segment_surface_numerical_6d_tau Bnum [at3 4 1 1 1; at3 4 (-3) 1 1] [at3 1 0 0 0; at3 1 0 1 0; at3 1 0 0 1] = Ok true /\
  check_intersection_two_tetrahedron_4 Bnum tetP tetM = Ok 3%Z.
Proof. exact E_C95_ex. Qed.

(** The textbook np.dot and np.linalg.det meet the bounds asked of la. *)
Example C95_linalg : linalg_ok textbook.
Proof. exact E_C95_linalg. Qed.
