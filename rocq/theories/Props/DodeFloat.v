(** What the geometric tests of dode2/numericalc.py and the intersection of dode2 objects
    give in binary64: C99, C100.
    Here la is any np.dot and np.linalg.det accurate to the bounds of Spec/LinAlg; C108 says
    which evaluations are.  Examples and refutations use the textbook ones (Bnum). *)
From Coq Require Import Reals List ZArith Lia Lra Bool.
From Flocq Require Import IEEE754.Binary.
From Verif Require Import Base.Res Model.Tau Model.Arr Model.Num Model.DodeMath1 Model.DodeNumeric Model.DodeIntersect
  Spec.LinAlg Spec.Value Spec.RVec Spec.Shape Spec.DodeSpec Spec.Sets Spec.Space Spec.Tetra Spec.Overlap Spec.Plane Spec.Samples Spec.DodeSamples Spec.Float Spec.PlaneFloat.
Import ListNotations.
Local Open Scope R_scope.
From Verif Require Import Proofs.P_DodeFloat.
Import ListNotations.
Local Open Scope R_scope.

(** C99: the perpendicular coordinates computed from exact numbers of size A are finite and
    off by at most 10 A / 2^51. *)
Theorem C99_projection : forall (la : linalg) A v, 1 <= A <= 1000000 -> coefs A v -> exists x y z p q r, dinternal (@Bmath la) v = Ok (x, y, z) /\ dp v = (p, q, r) /\
  is_finite 53 1024 x = true /\ is_finite 53 1024 y = true /\ is_finite 53 1024 z = true /\
  Rabs (B2R 53 1024 x - p) <= 10 * A / 2^51 /\ Rabs (B2R 53 1024 y - q) <= 10 * A / 2^51 /\ Rabs (B2R 53 1024 z - r) <= 10 * A / 2^51.
Proof. exact L_C99_projection. Qed.
Print Assumptions C99_projection.

(** Every point of a closed triangle is accepted ... *)
Theorem C99_inside : forall la, linalg_ok la ->
  forall A D h v t, tame2 A D h (v :: t) -> length t = 3%nat -> plump2 A D t ->
  hull (map dp t) (dp v) -> inside_outside_triangle_tau (@Bmath la) v t = Ok true.
Proof. exact L_C99_inside. Qed.
Print Assumptions C99_inside.

(** ... and every point with a barycentric coordinate of at most -1e-6 is rejected. *)
Theorem C99_outside : forall la, linalg_ok la ->
  forall A D h v t ws w, tame2 A D h (v :: t) -> length t = 3%nat -> plump2 A D t ->
  bary ws (map dp t) (dp v) -> In w ws -> w <= - (1/1000000) -> inside_outside_triangle_tau (@Bmath la) v t = Ok false.
Proof. exact L_C99_outside. Qed.
Print Assumptions C99_outside.

(** Exactly parallel segments never meet. *)
Theorem C99_parallel : forall la, linalg_ok la ->
  forall A D h a b c d, tame2 A D h [a; b; c; d] -> turn a b c d = 0 ->
  dcheck_intersection_two_segment_numerical_6d_tau (@Bmath la) [a; b] [c; d] = Ok false.
Proof. exact L_C99_parallel. Qed.
Print Assumptions C99_parallel.

(** Segments that cross away from their ends are recognised ... *)
Theorem C99_crosses : forall la, linalg_ok la ->
  forall A D h a b c d p, tame2 A D h [a; b; c; d] -> turn a b c d <> 0 -> sharp2 A D [a; b] [c; d] ->
  12/10000000 <= turn a b c d ^ 2 -> crosses_at [a; b] [c; d] p ->
  dcheck_intersection_two_segment_numerical_6d_tau (@Bmath la) [a; b] [c; d] = Ok true.
Proof. exact L_C99_crosses. Qed.
Print Assumptions C99_crosses.

(** ... and recognised segments have a point within 1e-6 of both, in barycentric coordinates. *)
Theorem C99_sound : forall la, linalg_ok la ->
  forall A D h a b c d, tame2 A D h [a; b; c; d] -> sharp2 A D [a; b] [c; d] ->
  dcheck_intersection_two_segment_numerical_6d_tau (@Bmath la) [a; b] [c; d] = Ok true ->
  exists p, near (1/1000000) (map dp [a; b]) p /\ near (1/1000000) (map dp [c; d]) p.
Proof. exact L_C99_sound. Qed.
Print Assumptions C99_sound.

(** C100: every point of an intersection computed in binary64 lies in a triangle of each
    object up to 1e-6 in barycentric coordinates, whatever the triangulation. *)
Theorem C100_sound : forall la, linalg_ok la ->
  forall delaunay o1 o2 r p, tris o1 -> tris o2 ->
  (forall t1 t2, In t1 o1 -> In t2 o2 -> exists A D h, fit_pair2 A D h t1 t2) ->
  dintersection (@Bmath la) delaunay false (A4 o1) (A4 o2) = Ok (Some r) -> dregion r p ->
  exists t1 t2, In t1 o1 /\ In t2 o2 /\ near (1/1000000) (map dp t1) p /\ near (1/1000000) (map dp t2) p.
Proof. exact L_C100_sound. Qed.
Print Assumptions C100_sound.

(** If no vertex and no crossing point lies within 1e-6 outside, the result lies exactly in
    both objects. *)
Theorem C100_sound_exact : forall la, linalg_ok la ->
  forall delaunay o1 o2 r p, tris o1 -> tris o2 ->
  (forall t1 t2, In t1 o1 -> In t2 o2 -> (exists A D h, fit_pair2 A D h t1 t2) /\ clear3_pair t1 t2 /\ clear3_pair t2 t1) ->
  dintersection (@Bmath la) delaunay false (A4 o1) (A4 o2) = Ok (Some r) -> dregion r p -> dregion o1 p /\ dregion o2 p.
Proof. exact L_C100_sound_exact. Qed.
Print Assumptions C100_sound_exact.

(** Nothing is lost for two triangles that cross properly or contain one another, if the
    distance test, which is also evaluated in binary64, keeps the first. *)
Theorem C100_nothing_lost : forall la, linalg_ok la ->
  forall delaunay o1 o2 r t1 t2 p A D h, tris o1 -> tris o2 -> In t1 o1 -> In t2 o2 ->
  triangulates (@Bmath la) delaunay ->
  dintersection (@Bmath la) delaunay false (A4 o1) (A4 o2) = Ok r ->
  fit_pair2 A D h t1 t2 -> neat_pair t1 t2 -> overlaps t1 t2 ->
  (forall c d, dcentroid_obj o2 = Ok c -> dball_radius_obj (@Bmath la) (A4 o2) c = Ok d -> rough_check_intersection_triangle_obj (@Bmath la) t1 c d = Ok true) ->
  hull (map dp t1) p -> hull (map dp t2) p ->
  (exists r', r = Some r' /\ dregion r' p) \/ thin2 t1 t2.
Proof. exact L_C100_nothing_lost. Qed.
Print Assumptions C100_nothing_lost.

(** Segments that meet in an end point of one of them can be missed: the test with the
    exact numbers accepts them, the test in binary64 does not. *)
Theorem C99_touch_refuted : exists A D h a b c d, goods 6 [a; b; c; d] /\ tame2 A D h [a; b; c; d] /\ sharp2 A D [a; b] [c; d] /\ 1/4 <= turn a b c d ^ 2 /\
  hull (map dp [a; b]) (dp c) /\
  dcheck_intersection_two_segment_numerical_6d_tau Rnum [a; b] [c; d] = Ok true /\
  dcheck_intersection_two_segment_numerical_6d_tau Bnum [a; b] [c; d] = Ok false.
Proof. exact L_C99_touch_refuted. Qed.
Print Assumptions C99_touch_refuted.

(** For that reason overlapping triangles can have an empty intersection: the triangle t lies
    in t1 and in t2, and no edges cross away from their ends. *)
Theorem C100_touch_refuted : exists A D h t1 t2 t, tris [t1; t2; t] /\ fit_pair2 A D h t1 t2 /\ 1/4 <= parea t /\
  (forall p, hull (map dp t) p -> hull (map dp t1) p /\ hull (map dp t2) p) /\
  forall delaunay, dintersection Bnum delaunay false (A4 [t1]) (A4 [t2]) = Ok None.
Proof. exact L_C100_touch_refuted. Qed.
Print Assumptions C100_touch_refuted.

(** Triangulations as the theorem asks for exist: the one that returns all triples. *)
Example C100_triangulation : exists delaunay, triangulates Bnum delaunay.
Proof. exact E_C100_triangulation. Qed.

(** C99: a point inside and one outside a triangle, two segments that cross and two that are
    parallel. *)
Example C99_ex : tame2 2 2 0 (q 1 1 :: triA) /\ tame2 2 2 0 (q 3 3 :: triA) /\ plump2 2 2 triA /\ hull (map dp triA) (dp (q 1 1)) /\
  bary [-1/2; 3/4; 3/4] (map dp triA) (dp (q 3 3)) /\
  tame2 2 2 0 [x2; x3; q 1 1; q 5 1] /\ sharp2 2 2 [x2; x3] [q 1 1; q 5 1] /\ turn x2 x3 (q 1 1) (q 5 1) = -1 /\ crosses_at [x2; x3] [q 1 1; q 5 1] (dp (q 3 1)) /\
  tame2 2 2 0 [o6; x2; q 1 1; q 5 1] /\ turn o6 x2 (q 1 1) (q 5 1) = 0.
Proof. exact E_C99_ex. Qed.

(** C100: two triangles that overlap without containing one another meet all hypotheses. *)
Example C100_ex : tris [triA] /\ tris [triB] /\ fit_pair2 2 2 0 triA triB /\ clear3_pair triA triB /\ clear3_pair triB triA /\ neat_pair triA triB /\ overlaps triA triB /\
  (forall c d, dcentroid_obj [triB] = Ok c -> dball_radius_obj Bnum (A4 [triB]) c = Ok d -> rough_check_intersection_triangle_obj Bnum triA c d = Ok true) /\
  hull (map dp triA) (dp (q 1 1)) /\ hull (map dp triB) (dp (q 1 1)) /\
  dintersection Bnum (fun _ => None) false (A4 [triA]) (A4 [triB]) = Ok (Some [[q 1 1; q 1 3; q 3 1]]).
Proof. exact E_C100_ex. Qed.

(** The textbook np.dot and np.linalg.det meet the bounds asked of la. *)
Example C99_linalg : linalg_ok textbook.
Proof. exact E_C99_linalg. Qed.
