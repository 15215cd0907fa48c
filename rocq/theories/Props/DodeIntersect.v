(** Intersection of triangles and objects of the dodecagonal package (dode2/intsct.py):
    C70-C73, C75.  [N] is any arithmetic for the floating-point tests ([Bnum] is binary64,
    [Rnum] exact); the Delaunay triangulation is arbitrary.  [level h]: all vertices
    have the same third coordinate h in perpendicular space. *)
From Coq Require Import Reals List ZArith Lia Lra Bool.
From Verif Require Import Base.Res Model.Tau Model.Arr Model.Num Model.DodeMath1 Model.DodeNumeric Model.DodeArea Model.DodeIntersect
  Spec.Value Spec.RVec Spec.Shape Spec.DodeSpec Spec.Sets Spec.Space Spec.Tetra Spec.Overlap Spec.Plane Spec.Samples Spec.DodeSamples.
Import ListNotations.
Local Open Scope R_scope.
From Verif Require Import Proofs.P_DodeIntersect.
Import ListNotations.
Local Open Scope R_scope.

(** C70: the inside test in exact arithmetic, for a point and a triangle of one plane:
    true exactly if the triangle is not degenerate and the absolute values of the barycentric
    coordinates of the point add up to less than 1+1e-6. *)
Theorem C70_iff : forall h v a b c, goods 6 [v; a; b; c] -> level h [v; a; b; c] ->
  (inside_outside_triangle_tau Rnum v [a; b; c] = Ok true <->
   ~ flat3 (dp a) (dp b) (dp c) /\ exists ws, bary ws [dp a; dp b; dp c] (dp v) /\ Rsum (map Rabs ws) < 1 + 1 / 1000000).
Proof. exact L_C70_iff. Qed.
Print Assumptions C70_iff.

(** Every point of the closed triangle passes ... *)
Theorem C70_closed_triangle : forall h v a b c, goods 6 [v; a; b; c] -> level h [v; a; b; c] -> ~ flat3 (dp a) (dp b) (dp c) ->
  hull [dp a; dp b; dp c] (dp v) -> inside_outside_triangle_tau Rnum v [a; b; c] = Ok true.
Proof. exact L_C70_closed_triangle. Qed.
Print Assumptions C70_closed_triangle.

(** ... and nothing passes whose barycentric coordinates are below -5e-7, so that a degenerate
    triangle contains nothing at all. *)
Theorem C70_sharp : forall h v a b c, goods 6 [v; a; b; c] -> level h [v; a; b; c] ->
  inside_outside_triangle_tau Rnum v [a; b; c] = Ok true ->
  ~ flat3 (dp a) (dp b) (dp c) /\ near (1/2000000) [dp a; dp b; dp c] (dp v).
Proof. exact L_C70_sharp. Qed.
Print Assumptions C70_sharp.

(** The test itself never raises, in any arithmetic. *)
Theorem C70_total : forall N v t, good 6 v -> goods 6 t -> length t = 3%nat -> exists b, inside_outside_triangle_tau N v t = Ok b.
Proof. exact L_C70_total. Qed.
Print Assumptions C70_total.

(** (1/4,1/4) is inside (0,0),(1,0),(0,1); (1/4,5/4) is not; nothing is inside a degenerate triangle. *)
Example C70_ex : goods 6 (q 1 1 :: triA) /\ level 0 (q 1 1 :: triA) /\ ~ flat3 (dp o6) (dp x2) (dp x3) /\ hull (map dp triA) (dp (q 1 1)) /\
  inside_outside_triangle_tau Bnum (q 1 1) triA = Ok true /\ inside_outside_triangle_tau Bnum (q 1 5) triA = Ok false /\
  inside_outside_triangle_tau Bnum x2 [o6; x2; iv [0;2;0;0;0;0]%Z] = Ok false.
Proof. exact E_C70_ex. Qed.

(** C71: when two segments of one plane are reported to meet, in exact arithmetic. *)
Theorem C71_test : forall h A B C D, goods 6 [A; B; C; D] -> level h [A; B; C; D] ->
  (dcheck_intersection_two_segment_numerical_6d_tau Rnum [A; B] [C; D] = Ok true <->
   1/1000000 <= det2 (sub3 (dp B) (dp A)) (sub3 (dp D) (dp C)) * det2 (sub3 (dp B) (dp A)) (sub3 (dp D) (dp C)) /\
   exists p, hull [dp A; dp B] p /\ hull [dp C; dp D] p).
Proof. exact L_C71_test. Qed.
Print Assumptions C71_test.

(** Without the assumption of one plane: the points of the two lines nearest to one another
    belong to the segments and are less than 1e-3 apart. *)
Theorem C71_test_space : forall A B C D, goods 6 [A; B; C; D] ->
  let AB := sub3 (dp B) (dp A) in let CD := sub3 (dp D) (dp C) in
  (dcheck_intersection_two_segment_numerical_6d_tau Rnum [A; B] [C; D] = Ok true <->
   1/1000000 <= dot3 (cross3 AB CD) (cross3 AB CD) /\
   exists s t, 0 <= s <= 1 /\ 0 <= t <= 1 /\
     let gap := sub3 (add3 (dp C) (scale3 t CD)) (add3 (dp A) (scale3 s AB)) in
     dot3 gap AB = 0 /\ dot3 gap CD = 0 /\ dot3 gap gap < 1/1000000).
Proof. exact L_C71_test_space. Qed.
Print Assumptions C71_test_space.

(** Any arithmetic: whenever the test reports a hit, and the segments are not parallel, the
    result is the canonical vector A+t(B-A) for the t at which the lines meet. *)
Theorem C71_point : forall N A B C D t u, goods 6 [A; B; C; D] ->
  dcheck_intersection_two_segment_numerical_6d_tau N [A; B] [C; D] = Ok true ->
  cross3 (sub3 (dp B) (dp A)) (sub3 (dp D) (dp C)) <> o3 ->
  add3 (dp A) (scale3 t (sub3 (dp B) (dp A))) = add3 (dp C) (scale3 u (sub3 (dp D) (dp C))) ->
  exists p, dintersection_two_segment N [A; B] [C; D] = Ok (Some p) /\ cgood 6 p /\
    vals SIN p = vadd (vals SIN A) (vscale t (vsub (vals SIN B) (vals SIN A))) /\
    dp p = add3 (dp A) (scale3 t (sub3 (dp B) (dp A))).
Proof. exact L_C71_point. Qed.
Print Assumptions C71_point.

(** Segments reported to meet that are exactly parallel make it raise. *)
Theorem C71_parallel : forall N A B C D, goods 6 [A; B; C; D] ->
  dcheck_intersection_two_segment_numerical_6d_tau N [A; B] [C; D] = Ok true ->
  cross3 (sub3 (dp B) (dp A)) (sub3 (dp D) (dp C)) = o3 ->
  dintersection_two_segment N [A; B] [C; D] = Raise TypeError.
Proof. exact L_C71_parallel. Qed.
Print Assumptions C71_parallel.

(** Exact arithmetic, one plane: the result is the common point of the two closed segments;
    None only if there is none or the segments are parallel within the tolerance. *)
Theorem C71_exact : forall h A B C D, goods 6 [A; B; C; D] -> level h [A; B; C; D] ->
  let k := det2 (sub3 (dp B) (dp A)) (sub3 (dp D) (dp C)) in
  exists o, dintersection_two_segment Rnum [A; B] [C; D] = Ok o /\
   match o with
   | Some v => cgood 6 v /\ 1/1000000 <= k * k /\ hull [dp A; dp B] (dp v) /\ hull [dp C; dp D] (dp v) /\
       (forall p, hull [dp A; dp B] p -> hull [dp C; dp D] p -> p = dp v) /\
       exists t, vals SIN v = vadd (vals SIN A) (vscale t (vsub (vals SIN B) (vals SIN A)))
   | None => k * k < 1/1000000 \/ forall p, ~ (hull [dp A; dp B] p /\ hull [dp C; dp D] p)
   end.
Proof. exact L_C71_exact. Qed.
Print Assumptions C71_exact.

(** In binary64: the diagonal from (0,0) to (1,1) meets the edge from (1,0) to (0,1) in the middle. *)
Example C71_ex : goods 6 [o6; iv [0;1;1;0;0;0]%Z; x2; x3] /\ level 0 [o6; iv [0;1;1;0;0;0]%Z; x2; x3] /\
  dcheck_intersection_two_segment_numerical_6d_tau Bnum [o6; iv [0;1;1;0;0;0]%Z] [x2; x3] = Ok true /\
  cross3 (sub3 (dp (iv [0;1;1;0;0;0]%Z)) (dp o6)) (sub3 (dp x3) (dp x2)) <> o3 /\
  add3 (dp o6) (scale3 (1/2) (sub3 (dp (iv [0;1;1;0;0;0]%Z)) (dp o6))) = add3 (dp x2) (scale3 (1/2) (sub3 (dp x3) (dp x2))) /\
  dintersection_two_segment Bnum [o6; iv [0;1;1;0;0;0]%Z] [x2; x3] = Ok (Some (pl (T 1 0 2) (T 1 0 2))).
Proof. exact E_C71_ex. Qed.

(** C72: the four classes of a pair of triangles, for any arithmetic; never raises. *)
Theorem C72_classes : forall N t1 t2, tris [t1] -> tris [t2] ->
  let in1 := forall v, In v t1 -> inside_outside_triangle_tau N v t2 = Ok true in
  let in2 := forall v, In v t2 -> inside_outside_triangle_tau N v t1 = Ok true in
  let meets := fun s e => dcheck_intersection_two_segment_numerical_6d_tau N s e = Ok true in
  exists k, check_intersection_two_triangles N t1 t2 = Ok k /\
    (k = 1%Z <-> in1) /\ (k = 2%Z <-> ~ in1 /\ in2) /\
    (k = 3%Z <-> ~ in1 /\ ~ in2 /\ (edges_cross meets t1 t2 \/ edges_cross meets t2 t1)) /\
    (k = 0%Z <-> ~ in1 /\ ~ in2 /\ ~ edges_cross meets t1 t2 /\ ~ edges_cross meets t2 t1).
Proof. exact L_C72_classes. Qed.
Print Assumptions C72_classes.

(** The distance test in exact arithmetic never discards a triangle that has a point in
    common with a ball around the given centre. *)
Theorem C72_ball : forall t c r p, t <> [] -> goods 6 t -> good 6 c ->
  hull (map dp t) p -> dist3 p (dp c) <= r ->
  rough_check_intersection_triangle_obj Rnum t c r = Ok true.
Proof. exact L_C72_ball. Qed.
Print Assumptions C72_ball.

(** The radius of an object is the largest distance of a vertex from the centre ... *)
Theorem C72_radius : forall o c, goodo 6 o -> good 6 c -> exists r, dball_radius_obj Rnum (A4 o) c = Ok r /\
  (forall t p, In t o -> hull (map dp t) p -> dist3 p (dp c) <= r) /\
  (r = 0 \/ exists t v, In t o /\ In v t /\ r = dist3 (dp v) (dp c)).
Proof. exact L_C72_radius. Qed.
Print Assumptions C72_radius.

(** ... and a triangle that has a point in common with a triangle of the object passes
    the test with the object's centroid and radius. *)
Theorem C72_never_discards : forall t o t2 p, t <> [] -> goods 6 t -> tris o -> In t2 o ->
  hull (map dp t) p -> hull (map dp t2) p ->
  exists c r, dcentroid_obj o = Ok c /\ dball_radius_obj Rnum (A4 o) c = Ok r /\
    rough_check_intersection_triangle_obj Rnum t c r = Ok true.
Proof. exact L_C72_never_discards. Qed.
Print Assumptions C72_never_discards.

Example C72_ex : tris [triA] /\ tris [triB] /\
  check_intersection_two_triangles Bnum triA triB = Ok 3%Z /\ check_intersection_two_triangles Bnum triS triA = Ok 1%Z /\
  check_intersection_two_triangles Bnum triA triS = Ok 2%Z /\ check_intersection_two_triangles Bnum triA triF = Ok 0%Z.
Proof. exact E_C72_ex. Qed.

Example C72_overlap_ex : triA <> [] /\ goods 6 triA /\ tris [triF; triB] /\ In triB [triF; triB] /\
  hull (map dp triA) (dp (q 1 1)) /\ hull (map dp triB) (dp (q 1 1)).
Proof. exact E_C72_overlap_ex. Qed.

(** C73: what triangulation_points keeps.  [q]: the points handed to Delaunay, the first two
    coordinates of the projections; [l]: the simplices it returns. *)
Theorem C73_pieces : forall N delaunay p r, goods 6 p -> triangulation_points N delaunay p = Ok r ->
  exists q, mapM (fun v => bind (dprojection3 v) (fun w => Ok (firstn 2 (dnumerical_vector N w)))) p = Ok q /\
   match delaunay q with
   | None => r = None
   | Some l => exists ts, Forall2 (corners_at p) l ts /\
     match r with
     | None => Forall (fun t => parea t = 0) ts
     | Some o => o <> [] /\ subseq o ts /\ (forall t, In t o <-> In t ts /\ parea t <> 0) /\ Forall (fun t => incl t p) o
     end
   end.
Proof. exact L_C73_pieces. Qed.
Print Assumptions C73_pieces.

(** It raises only if the triangulation names a missing point. *)
Theorem C73_pieces_total : forall N delaunay p, goods 6 p ->
  (forall q l, length q = length p -> delaunay q = Some l -> exists ts, Forall2 (corners_at p) l ts) ->
  exists r, triangulation_points N delaunay p = Ok r.
Proof. exact L_C73_pieces_total. Qed.
Print Assumptions C73_pieces_total.

(** The intersection of two triangles, any arithmetic: None or a non-empty list of
    triangles whose vertices are admissible points.  ps: the admissible points without
    repetitions in perpendicular space. *)
Theorem C73_result : forall N delaunay t1 t2 r, tris [t1] -> tris [t2] ->
  intersection_two_triangles N delaunay t1 t2 = Ok r ->
  let adm := admissible2 (fun v t => inside_outside_triangle_tau N v t = Ok true)
               (fun s e v => dintersection_two_segment N s e = Ok (Some v)) t1 t2 in
  exists ps, (forall v, In v ps -> adm v) /\ NoDup (map dppoint ps) /\ (forall v, adm v -> In (dppoint v) (map dppoint ps)) /\ goods 6 ps /\
   match r with
   | None => (length ps < 3)%nat \/ ((3 < length ps)%nat /\ triangulation_points N delaunay ps = Ok None) \/
       exists k p, dcollect N t1 t2 = Ok (k, p) /\ (k < 3)%nat
   | Some o => (3 <= length ps)%nat /\ o <> [] /\ tris o /\ (forall t v, In t o -> In v t -> adm v) /\
       (length ps = 3%nat -> o = [ps]) /\
       ((3 < length ps)%nat -> triangulation_points N delaunay ps = Ok (Some o) /\ Forall (fun t => parea t <> 0) o)
   end.
Proof. exact L_C73_result. Qed.
Print Assumptions C73_result.

(** It is meant to be called on pairs of class 3 only: triangles no edges of which meet
    make it raise UnboundLocalError ... *)
Theorem C73_unbound : forall N delaunay t1 t2, tris [t1] -> tris [t2] ->
  (forall s e, edge_of s t1 -> edge_of e t2 -> dcheck_intersection_two_segment_numerical_6d_tau N s e = Ok false) ->
  (forall s e, edge_of s t2 -> edge_of e t1 -> dcheck_intersection_two_segment_numerical_6d_tau N s e = Ok false) ->
  intersection_two_triangles N delaunay t1 t2 = Raise UnboundLocalError.
Proof. exact L_C73_unbound. Qed.
Print Assumptions C73_unbound.

(** ... while on pairs of class 3 it never does. *)
Theorem C73_class_3 : forall N delaunay t1 t2, tris [t1] -> tris [t2] ->
  check_intersection_two_triangles N t1 t2 = Ok 3%Z -> intersection_two_triangles N delaunay t1 t2 <> Raise UnboundLocalError.
Proof. exact L_C73_class_3. Qed.
Print Assumptions C73_class_3.

(** In binary64: three distinct points, one triangle; four points, the triangulation
    decides; triangles that do not meet. *)
Example C73_ex : tris [triA] /\ tris [triB] /\ tris [triF] /\
  intersection_two_triangles Bnum (fun _ => None) triA triB = Ok (Some [[q 1 1; q 1 3; q 3 1]]) /\
  intersection_two_triangles Bnum (fun _ => None) triA triC = Ok None /\
  intersection_two_triangles Bnum (fun _ => Some [(0,1,2); (0,2,3)]%nat) triA triC =
    Ok (Some [[x2; pl (T 1 0 4) (T 0 0 1); q 1 1]; [x2; q 1 1; pl (T 5 0 6) (T 1 0 6)]]) /\
  intersection_two_triangles Bnum (fun _ => None) triA triF = Raise UnboundLocalError.
Proof. exact E_C73_ex. Qed.

(** C75: the subtraction of two objects always raises NameError; arguments that are not
    4-d give None instead. *)
Theorem C75_subtraction : forall rest a1 a2,
  match a1, a2 with
  | A4 _, A4 _ => dsubtraction None rest a1 a2 = Raise NameError
  | _, _ => dsubtraction None rest a1 a2 = Ok None
  end.
Proof. exact L_C75_subtraction. Qed.
Print Assumptions C75_subtraction.

(** intersection_convex of two objects with at least one triangle each raises NameError. *)
Theorem C75_convex : forall N rest o1 o2, tris o1 -> tris o2 -> o1 <> [] -> o2 <> [] ->
  dintersection_convex N None rest (A4 o1) (A4 o2) = Raise NameError.
Proof. exact L_C75_convex. Qed.
Print Assumptions C75_convex.

(** C75, arguments that are not 4-d. *)
Theorem C75_convex_ndim : forall N inside_tt rest a1 a2, (forall o, a1 <> A4 o) \/ (forall o, a2 <> A4 o) ->
  dintersection_convex N inside_tt rest a1 a2 = Ok None.
Proof. exact L_C75_convex_ndim. Qed.
Print Assumptions C75_convex_ndim.

Example C75_ex : tris [triA] /\ tris [triB] /\ dintersection_convex Bnum None (fun _ _ _ => Ok None) (A4 [triA]) (A4 [triB]) = Raise NameError /\
  dintersection_convex Bnum None (fun _ _ _ => Ok None) (A3 triA) (A4 [triB]) = Ok None.
Proof. exact E_C75_ex. Qed.
