(** Intersection and subtraction of tetrahedra and objects (ico2/intsct.py): C32-C37, C56.
    [N] is any arithmetic for the floating-point tests (binary64 is one instance, [Bnum];
    [Rnum] is exact); the Delaunay triangulation and the random samples are arbitrary. *)
From Coq Require Import Reals List ZArith Lia Lra Bool.
From Verif Require Import Base.Res Model.Tau Model.Arr Model.Num Model.IcoNumeric Model.IcoMath1 Model.IcoVolume Model.IcoIntersect
  Spec.Value Spec.RVec Spec.Shape Spec.Geometry Spec.IcoSpec Spec.Sets Spec.Space Spec.Tetra Spec.Samples.
Import ListNotations.
Local Open Scope R_scope.
From Verif Require Import Proofs.P_Intersect.
Import ListNotations.
Local Open Scope R_scope.

(** C32, any arithmetic: whenever the numerical test reports a hit and line and plane
    are not parallel, the result is the canonical vector A+t(B-A), where t is the only
    parameter for which the perpendicular projection lies in the plane of the triangle. *)
Theorem C32_point : forall N A B C D E u v t, goods 6 [A; B; C; D; E] ->
  check_intersection_segment_surface_numerical_6d_tau N [A; B] [C; D; E] = Ok true ->
  triple3 (sub3 (pp B) (pp A)) (sub3 (pp D) (pp C)) (sub3 (pp E) (pp C)) <> 0 ->
  add3 (pp A) (scale3 t (sub3 (pp B) (pp A))) = add3 (pp C) (add3 (scale3 u (sub3 (pp D) (pp C))) (scale3 v (sub3 (pp E) (pp C)))) ->
  exists p, intersection_segment_surface N [A; B] [C; D; E] = Ok (Some p) /\ cgood 6 p /\
    vals TAU p = vadd (vals TAU A) (vscale t (vsub (vals TAU B) (vals TAU A))) /\
    pp p = add3 (pp A) (scale3 t (sub3 (pp B) (pp A))).
Proof. exact L_C32_point. Qed.
Print Assumptions C32_point.

(** ... a positive test on an exactly parallel pair (possible only through rounding) raises. *)
Theorem C32_parallel : forall N A B C D E, goods 6 [A; B; C; D; E] ->
  check_intersection_segment_surface_numerical_6d_tau N [A; B] [C; D; E] = Ok true ->
  triple3 (sub3 (pp B) (pp A)) (sub3 (pp D) (pp C)) (sub3 (pp E) (pp C)) = 0 ->
  intersection_segment_surface N [A; B] [C; D; E] = Raise TypeError.
Proof. exact L_C32_parallel. Qed.
Print Assumptions C32_parallel.

(** In exact arithmetic it returns None exactly when the test is negative; otherwise a
    point whose projection lies on the segment and in the triangle up to 1e-6 in the
    affine coordinates, and exactly on the segment's line and in the triangle's plane. *)
Theorem C32_exact : forall A B C D E, goods 6 [A; B; C; D; E] ->
  exists o, intersection_segment_surface Rnum [A; B] [C; D; E] = Ok o /\
  match o with
  | None => check_intersection_segment_surface_numerical_6d_tau Rnum [A; B] [C; D; E] = Ok false
  | Some p => check_intersection_segment_surface_numerical_6d_tau Rnum [A; B] [C; D; E] = Ok true /\
      cgood 6 p /\ exists t u v, vals TAU p = vadd (vals TAU A) (vscale t (vsub (vals TAU B) (vals TAU A))) /\
      pp p = add3 (pp A) (scale3 t (sub3 (pp B) (pp A))) /\
      pp p = add3 (pp C) (add3 (scale3 u (sub3 (pp D) (pp C))) (scale3 v (sub3 (pp E) (pp C)))) /\
      - (1/1000000) <= t <= 1 + 1/1000000 /\ - (1/1000000) <= u <= 1 + 1/1000000 /\ - (1/1000000) <= v /\ u + v <= 1 + 1/1000000
  end.
Proof. exact L_C32_exact. Qed.
Print Assumptions C32_exact.

(** With t in [0,1] the point is on the closed segment. *)
Theorem C32_on_segment : forall A B p t, 0 <= t <= 1 -> pp p = add3 (pp A) (scale3 t (sub3 (pp B) (pp A))) ->
  hull [pp A; pp B] (pp p).
Proof. exact L_C32_on_segment. Qed.
Print Assumptions C32_on_segment.

(** In binary64: the segment from 0 to x1+x2+x4 meets the triangle x1,x2,x4 at 1/3. *)
Example C32_ex : goods 6 [o6; iv [1;1;0;1;0;0]%Z; x1; x2; x4] /\
  check_intersection_segment_surface_numerical_6d_tau Bnum [o6; iv [1;1;0;1;0;0]%Z] [x1; x2; x4] = Ok true /\
  triple3 (sub3 (pp (iv [1;1;0;1;0;0]%Z)) (pp o6)) (sub3 (pp x2) (pp x1)) (sub3 (pp x4) (pp x1)) <> 0 /\
  add3 (pp o6) (scale3 (1/3) (sub3 (pp (iv [1;1;0;1;0;0]%Z)) (pp o6))) =
    add3 (pp x1) (add3 (scale3 (1/3) (sub3 (pp x2) (pp x1))) (scale3 (1/3) (sub3 (pp x4) (pp x1)))) /\
  intersection_segment_surface Bnum [o6; iv [1;1;0;1;0;0]%Z] [x1; x2; x4] = Ok (Some [T 1 0 3; T 1 0 3; T 0 0 1; T 1 0 3; T 0 0 1; T 0 0 1]).
Proof. exact E_C32_ex. Qed.

(** C33: the four classes, for any arithmetic; the function never raises. *)
Theorem C33_classes : forall N t1 t2, length t1 = 4%nat -> goods 6 t1 -> length t2 = 4%nat -> goods 6 t2 ->
  let in1 := forall v, In v t1 -> inside_outside_tetrahedron_tau N v t2 = Ok true in
  let in2 := forall v, In v t2 -> inside_outside_tetrahedron_tau N v t1 = Ok true in
  let meets := fun s f => check_intersection_segment_surface_numerical_6d_tau N s f = Ok true in
  exists k, check_intersection_two_tetrahedron_4 N t1 t2 = Ok k /\
    (k = 1%Z <-> in1) /\ (k = 2%Z <-> ~ in1 /\ in2) /\
    (k = 3%Z <-> ~ in1 /\ ~ in2 /\ (crosses meets t1 t2 \/ crosses meets t2 t1)) /\
    (k = 0%Z <-> ~ in1 /\ ~ in2 /\ ~ crosses meets t1 t2 /\ ~ crosses meets t2 t1).
Proof. exact L_C33_classes. Qed.
Print Assumptions C33_classes.

(** In exact arithmetic: if an edge of one tetrahedron has a point in common with a face
    of the other, and the two are not nearly parallel, the class is not 0. *)
Theorem C33_crossing_not_0 : forall t1 t2 s f p, length t1 = 4%nat -> goods 6 t1 -> length t2 = 4%nat -> goods 6 t2 ->
  (edge_of s t1 /\ face_of f t2) \/ (edge_of s t2 /\ face_of f t1) ->
  hull (map pp s) p -> hull (map pp f) p ->
  (forall a b c d e, s = [a; b] -> f = [c; d; e] -> 1/1000000 <= Rabs (triple3 (sub3 (pp b) (pp a)) (sub3 (pp d) (pp c)) (sub3 (pp e) (pp c)))) ->
  exists k, check_intersection_two_tetrahedron_4 Rnum t1 t2 = Ok k /\ (k = 1 \/ k = 2 \/ k = 3)%Z.
Proof. exact L_C33_crossing_not_0. Qed.
Print Assumptions C33_crossing_not_0.

Example C33_ex : length tetA = 4%nat /\ goods 6 tetA /\ length tetB = 4%nat /\ goods 6 tetB /\
  check_intersection_two_tetrahedron_4 Bnum tetA tetB = Ok 3%Z.
Proof. exact E_C33_ex. Qed.

(** C34: the distance test in exact arithmetic never discards a tetrahedron that has a
    point in common with a ball around the given centre. *)
Theorem C34_ball : forall t c r p, t <> [] -> goods 6 t -> good 6 c ->
  hull (map pp t) p -> dist3 p (pp c) <= r ->
  rough_check_intersection_tetrahedron_obj Rnum t c r = Ok true.
Proof. exact L_C34_ball. Qed.
Print Assumptions C34_ball.

(** The radius computed for an object is the largest distance of a vertex from the
    centre, so the ball contains the whole object ... *)
Theorem C34_radius : forall o c, goodo 6 o -> good 6 c -> exists r, ball_radius_obj Rnum (A4 o) c = Ok r /\
  (forall t p, In t o -> hull (map pp t) p -> dist3 p (pp c) <= r) /\
  (r = 0 \/ exists t v, In t o /\ In v t /\ r = dist3 (pp v) (pp c)).
Proof. exact L_C34_radius. Qed.
Print Assumptions C34_radius.

(** ... and a tetrahedron that has a point in common with a tetrahedron of the object
    passes the test with the object's centroid and radius. *)
Theorem C34_never_discards : forall t o t2 p, t <> [] -> goods 6 t -> tets o -> In t2 o ->
  hull (map pp t) p -> hull (map pp t2) p ->
  exists c r, centroid_obj o = Ok c /\ ball_radius_obj Rnum (A4 o) c = Ok r /\
    rough_check_intersection_tetrahedron_obj Rnum t c r = Ok true.
Proof. exact L_C34_never_discards. Qed.
Print Assumptions C34_never_discards.

Example C34_ex : tetA <> [] /\ goods 6 tetA /\ tets [tetC; tetB] /\ In tetB [tetC; tetB] /\
  hull (map pp tetA) (pp x1) /\ hull (map pp tetB) (pp x1).
Proof. exact E_C34_ex. Qed.

(** C37: what tetrahedralization_points keeps.  [l]: the simplices of the triangulation. *)
Theorem C37_pieces : forall N delaunay p r, goods 6 p -> tetrahedralization_points N delaunay p = Ok r ->
  exists q l ts, delaunay q = Some l /\ Forall2 (vertices_at p) l ts /\
   match r with
   | None => Forall (fun t => pvol t = 0) ts
   | Some o => o <> [] /\ subseq o ts /\ (forall t, In t o <-> In t ts /\ pvol t <> 0) /\ Forall (fun t => incl t p) o
   end.
Proof. exact L_C37_pieces. Qed.
Print Assumptions C37_pieces.

(** It raises only if there are no points, the triangulation fails or names a missing point. *)
Theorem C37_raises : forall N delaunay p, goods 6 p -> p <> [] ->
  (forall q, length q = length p -> exists l ts, delaunay q = Some l /\ Forall2 (vertices_at p) l ts) ->
  exists r, tetrahedralization_points N delaunay p = Ok r.
Proof. exact L_C37_raises. Qed.
Print Assumptions C37_raises.

(** A flat simplex is dropped, the other kept. *)
Example C37_ex : goods 6 tetA /\
  tetrahedralization_points Bnum (fun _ => Some [(0,1,2,3); (0,0,1,2)]%nat) tetA = Ok (Some [tetA]) /\
  tetrahedralization_points Bnum (fun _ => Some [(0,0,1,2)]%nat) tetA = Ok None /\
  vertices_at tetA (0,1,2,3)%nat tetA.
Proof. exact E_C37_ex. Qed.

(** C35: the result is None or a non-empty list of tetrahedra whose vertices are
    admissible points.  ps: the admissible points without repetitions in
    perpendicular space. *)
Theorem C35_result : forall N delaunay draws t1 t2 r, length t1 = 4%nat -> goods 6 t1 -> length t2 = 4%nat -> goods 6 t2 ->
  intersection_two_tetrahedron_4 N delaunay draws t1 t2 = Ok r ->
  let adm := admissible (fun v t => inside_outside_tetrahedron_tau N v t = Ok true)
               (fun s f v => intersection_segment_surface N s f = Ok (Some v)) t1 t2 in
  exists ps, (forall v, In v ps -> adm v) /\ NoDup (map ppoint ps) /\ (forall v, adm v -> In (ppoint v) (map ppoint ps)) /\ goods 6 ps /\
   match r with
   | None => (length ps < 4)%nat \/ coplanar_check_numeric_tau N draws ps = Ok (Some true)
   | Some o => (4 <= length ps)%nat /\ coplanar_check_numeric_tau N draws ps <> Ok (Some true) /\
       o <> [] /\ (forall t, In t o -> length t = 4%nat /\ forall v, In v t -> adm v) /\
       (length ps = 4%nat -> o = [ps]) /\
       ((4 < length ps)%nat -> tetrahedralization_points N delaunay ps = Ok (Some o))
   end.
Proof. exact L_C35_result. Qed.
Print Assumptions C35_result.

(** Its tetrahedra are well-formed 6-d tetrahedra. *)
Theorem C35_tets : forall N delaunay draws t1 t2 o, tets [t1] -> tets [t2] ->
  intersection_two_tetrahedron_4 N delaunay draws t1 t2 = Ok (Some o) -> tets o.
Proof. exact L_C35_tets. Qed.
Print Assumptions C35_tets.

(** In exact arithmetic it never raises, provided the coplanarity check is decided and the
    triangulation of non-coplanar points succeeds, names existing points and has at
    least one tetrahedron of non-zero volume. *)
Theorem C35_never_raises : forall delaunay draws t1 t2, length t1 = 4%nat -> goods 6 t1 -> length t2 = 4%nat -> goods 6 t2 ->
  (forall ps, (4 <= length ps)%nat -> exists b, coplanar_check_numeric Rnum draws ps = Ok (Some b) /\ (b = false -> ~ coplanar3 ps)) ->
  (forall p q, (4 < length p)%nat -> goods 6 p -> ~ coplanar3 (map pp p) -> length q = length p -> exists l ts, delaunay q = Some l /\ Forall2 (vertices_at p) l ts /\
      exists t, In t ts /\ pvol t <> 0) ->
  exists r, intersection_two_tetrahedron_4 Rnum delaunay draws t1 t2 = Ok r.
Proof. exact L_C35_never_raises. Qed.
Print Assumptions C35_never_raises.

(** In binary64: four distinct points, one tetrahedron, whose fourth vertex is new; a pair
    with only three distinct points gives None. *)
Example C35_ex :
  intersection_two_tetrahedron_4 Bnum (fun _ => None) [(0,1,2)%nat] tetA tetB =
    Ok (Some [[x2; o6; [T 0 0 1; T 0 0 1; T 0 0 1; T (-3) 2 1; T 0 0 1; T 0 0 1]; x1]]) /\
  intersection_two_tetrahedron_4 Bnum (fun _ => None) [(0,1,2)%nat] tetA [o6; x1; x2; x3] = Ok None.
Proof. exact E_C35_ex. Qed.

(** Five distinct points: the triangulation is used. *)
Example C35_ex5 :
  match intersection_two_tetrahedron_4 Bnum (fun _ => Some [(0,1,2,3); (0,1,2,4)]%nat) [(0,1,2)%nat] tetA tetC with
  | Ok (Some o) => length o = 2%nat | _ => False end.
Proof. exact E_C35_ex5. Qed.

(** C36 for any distance test, classification and pairwise intersection: every
    tetrahedron of the result is a tetrahedron t1 of the first object that lies in some t2
    of the second, or belongs to what some pair (t1,t2) yields; with kind='simple' it
    may also be the t1 of such a pair. *)
Theorem C36_members : forall rough classify inter simple o1 o2 r,
  common_pieces rough classify inter simple o1 o2 = Ok (Some r) -> forall t, In t r ->
  exists i j t1 t2, nth_error o1 i = Some t1 /\ nth_error o2 j = Some t2 /\ rough t1 = Ok true /\
    ((classify t1 t2 = Ok 1%Z /\ t = t1) \/
     exists q, yields classify inter i j t1 t2 q /\ (In t q \/ (simple = true /\ t = t1))).
Proof. exact L_C36_members. Qed.
Print Assumptions C36_members.

(** Nothing is lost: every pair contributes, except that the pairs after a t2 that
    contains t1 are not looked at. *)
Theorem C36_complete : forall rough classify inter o1 o2 r i t1 j t2,
  common_pieces rough classify inter false o1 o2 = Ok r ->
  nth_error o1 i = Some t1 -> nth_error o2 j = Some t2 -> rough t1 = Ok true ->
  (classify t1 t2 = Ok 1%Z -> exists r', r = Some r' /\ In t1 r') /\
  ((forall j' t', (j' < j)%nat -> nth_error o2 j' = Some t' -> classify t1 t' <> Ok 1%Z) ->
   forall q, q <> [] -> yields classify inter i j t1 t2 q -> exists r', r = Some r' /\ incl q r').
Proof. exact L_C36_complete. Qed.
Print Assumptions C36_complete.

(** None exactly when no pair yields anything. *)
Theorem C36_none : forall rough classify inter simple o1 o2 r,
  (forall i j t1 t2, inter i j t1 t2 <> Ok (Some [])) ->
  common_pieces rough classify inter simple o1 o2 = Ok r ->
  (r = None <-> forall i j t1 t2, nth_error o1 i = Some t1 -> nth_error o2 j = Some t2 -> rough t1 = Ok true ->
     classify t1 t2 <> Ok 1%Z /\ forall q, ~ yields classify inter i j t1 t2 q).
Proof. exact L_C36_none. Qed.
Print Assumptions C36_none.

(** kind='simple' succeeds whenever kind='standard' does, and gives the same volume. *)
Theorem C36_simple : forall rough classify inter o1 o2, tets o1 -> tets o2 ->
  (forall i j t1 t2 q, tets [t1] -> tets [t2] -> inter i j t1 t2 = Ok (Some q) -> tets q /\ q <> []) ->
  (common_pieces rough classify inter false o1 o2 = Ok None -> common_pieces rough classify inter true o1 o2 = Ok None) /\
  (forall r, common_pieces rough classify inter false o1 o2 = Ok (Some r) ->
     exists r', common_pieces rough classify inter true o1 o2 = Ok (Some r') /\ obj_volume_6d (A4 r') = obj_volume_6d (A4 r)).
Proof. exact L_C36_simple. Qed.
Print Assumptions C36_simple.

(** intersection() itself: arguments that are not 4-d give None, otherwise the loop runs
    with the tests of C33, C34 and the pairwise intersection of C35. *)
Theorem C36_intersection : forall N delaunay draws simple a1 a2,
  match a1, a2 with
  | A4 o1, A4 o2 => forall c d, centroid_obj o2 = Ok c -> ball_radius_obj N (A4 o2) c = Ok d ->
      intersection N delaunay draws simple a1 a2 =
      common_pieces (fun t => rough_check_intersection_tetrahedron_obj N t c d) (check_intersection_two_tetrahedron_4 N)
        (fun i j => intersection_two_tetrahedron_4 N delaunay (draws i j)) simple o1 o2
  | _, _ => intersection N delaunay draws simple a1 a2 = Ok None
  end.
Proof. exact L_C36_intersection. Qed.
Print Assumptions C36_intersection.

(** The two kinds of intersection() have the same volume. *)
Theorem C36_kinds : forall N delaunay draws o1 o2 r, tets o1 -> tets o2 ->
  intersection N delaunay draws false (A4 o1) (A4 o2) = Ok (Some r) ->
  exists r', intersection N delaunay draws true (A4 o1) (A4 o2) = Ok (Some r') /\ obj_volume_6d (A4 r') = obj_volume_6d (A4 r).
Proof. exact L_C36_kinds. Qed.
Print Assumptions C36_kinds.

Example C36_ex : tets [tetA] /\ tets [tetB] /\
  intersection Bnum (fun _ => None) (fun _ _ => [(0,1,2)%nat]) false (A4 [tetA]) (A4 [tetB]) =
    Ok (Some [[x2; o6; [T 0 0 1; T 0 0 1; T 0 0 1; T (-3) 2 1; T 0 0 1; T 0 0 1]; x1]]).
Proof. exact E_C36_ex. Qed.

(** End to end in exact arithmetic: a tetrahedron of the first object all of whose vertices
    lie in a (non-flat) tetrahedron of the second is in the result. *)
Theorem C36_contained : forall delaunay draws o1 o2 t1 t2 r, tets o1 -> tets o2 -> In t1 o1 -> In t2 o2 ->
  pvol t2 <> 0 -> (forall v, In v t1 -> hull (map pp t2) (pp v)) ->
  intersection Rnum delaunay draws false (A4 o1) (A4 o2) = Ok r -> exists r', r = Some r' /\ In t1 r'.
Proof. exact L_C36_contained. Qed.
Print Assumptions C36_contained.

Example C36_contained_ex : pvol tetA <> 0 /\ forall v, In v tetA -> hull (map pp tetA) (pp v).
Proof. exact E_C36_contained_ex. Qed.

(** C56: subtraction for any surface generator and any per-tetrahedron subtraction:
    None as soon as one piece is None (nothing after it is even computed) ... *)
Theorem C56_none : forall surface not_obj o1 o2 s2 i t, surface o2 = Ok s2 -> nth_error o1 i = Some t ->
  not_obj i t o2 s2 = Ok None ->
  (forall j u, (j < i)%nat -> nth_error o1 j = Some u -> exists q, not_obj j u o2 s2 = Ok (Some q)) ->
  subtraction surface not_obj (A4 o1) (A4 o2) = Ok None.
Proof. exact L_C56_none. Qed.
Print Assumptions C56_none.

(** ... otherwise the concatenation of the pieces in order. *)
Theorem C56_concat : forall surface not_obj o1 o2 s2 ps, surface o2 = Ok s2 -> o1 <> [] -> length ps = length o1 ->
  (forall i t p, nth_error o1 i = Some t -> nth_error ps i = Some p -> not_obj i t o2 s2 = Ok (Some p)) ->
  subtraction surface not_obj (A4 o1) (A4 o2) = Ok (Some (concat ps)).
Proof. exact L_C56_concat. Qed.
Print Assumptions C56_concat.

Theorem C56_not_4d : forall surface not_obj a1 a2,
  (forall o1 o2, (a1, a2) <> (A4 o1, A4 o2)) -> subtraction surface not_obj a1 a2 = Ok None.
Proof. exact L_C56_not_4d. Qed.
Print Assumptions C56_not_4d.

Example C56_ex : subtraction (fun o => Ok o) (fun i t _ _ => if Nat.eqb i 1 then Ok None else Ok (Some [t])) (A4 [tetA; tetB; tetC]) (A4 [tetA]) = Ok None /\
  subtraction (fun o => Ok o) (fun _ t _ _ => Ok (Some [t; t])) (A4 [tetA; tetB]) (A4 [tetA]) = Ok (Some [tetA; tetA; tetB; tetB]).
Proof. exact E_C56_ex. Qed.
