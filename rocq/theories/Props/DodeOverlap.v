(** The intersection of two dodecagonal objects (dode2/intsct.py:422-560,
    two_occupation_domains.intersection): C74.  [N] is any arithmetic for the
    floating-point tests ([Rnum] exact, [Bnum] binary64); the triangulation is arbitrary. *)
From Coq Require Import Reals List ZArith Lia Lra Bool.
From Verif Require Import Base.Res Model.Tau Model.Arr Model.Num Model.DodeMath1 Model.DodeArea Model.IcoIntersect Model.DodeIntersect
  Spec.Value Spec.RVec Spec.Shape Spec.DodeSpec Spec.Sets Spec.Space Spec.Tetra Spec.Overlap Spec.Plane Spec.Samples Spec.DodeSamples.
Import ListNotations.
Local Open Scope R_scope.
From Verif Require Import Proofs.P_DodeOverlap.
Import ListNotations.
Local Open Scope R_scope.

(** C74 for any distance test, classification and pairwise intersection: every
    triangle of the result is a triangle t1 of the first object that lies in some t2
    of the second, or belongs to what some pair (t1,t2) yields; with select='simple' it
    may also be the t1 of such a pair. *)
Theorem C74_members : forall rough classify inter simple o1 o2 r,
  dcommon_pieces rough classify inter simple o1 o2 = Ok (Some r) -> forall t, In t r ->
  exists i j t1 t2, nth_error o1 i = Some t1 /\ nth_error o2 j = Some t2 /\ rough t1 = Ok true /\
    ((classify t1 t2 = Ok 1%Z /\ t = t1) \/
     exists q, yields classify inter i j t1 t2 q /\ (In t q \/ (simple = true /\ t = t1))).
Proof. exact L_C74_members. Qed.
Print Assumptions C74_members.

(** Nothing is lost: every pair contributes, except that the pairs after a t2 that
    contains t1 are not looked at. *)
Theorem C74_complete : forall rough classify inter o1 o2 r i t1 j t2,
  dcommon_pieces rough classify inter false o1 o2 = Ok r ->
  nth_error o1 i = Some t1 -> nth_error o2 j = Some t2 -> rough t1 = Ok true ->
  (classify t1 t2 = Ok 1%Z -> exists r', r = Some r' /\ In t1 r') /\
  ((forall j' t', (j' < j)%nat -> nth_error o2 j' = Some t' -> classify t1 t' <> Ok 1%Z) ->
   forall q, q <> [] -> yields classify inter i j t1 t2 q -> exists r', r = Some r' /\ incl q r').
Proof. exact L_C74_complete. Qed.
Print Assumptions C74_complete.

(** None exactly when no pair yields anything. *)
Theorem C74_none : forall rough classify inter simple o1 o2 r,
  (forall i j t1 t2, inter i j t1 t2 <> Ok (Some [])) ->
  dcommon_pieces rough classify inter simple o1 o2 = Ok r ->
  (r = None <-> forall i j t1 t2, nth_error o1 i = Some t1 -> nth_error o2 j = Some t2 -> rough t1 = Ok true ->
     classify t1 t2 <> Ok 1%Z /\ forall q, ~ yields classify inter i j t1 t2 q).
Proof. exact L_C74_none. Qed.
Print Assumptions C74_none.

(** select='simple' succeeds whenever select='standard' does, and gives the same area. *)
Theorem C74_simple : forall rough classify inter o1 o2, tris o1 -> tris o2 ->
  (forall i j t1 t2 q, tris [t1] -> tris [t2] -> inter i j t1 t2 = Ok (Some q) -> tris q /\ q <> []) ->
  (dcommon_pieces rough classify inter false o1 o2 = Ok None -> dcommon_pieces rough classify inter true o1 o2 = Ok None) /\
  (forall r, dcommon_pieces rough classify inter false o1 o2 = Ok (Some r) ->
     exists r', dcommon_pieces rough classify inter true o1 o2 = Ok (Some r') /\ obj_area_6d (A4 r') = obj_area_6d (A4 r)).
Proof. exact L_C74_simple. Qed.
Print Assumptions C74_simple.

(** intersection() itself: arguments that are not 4-d give None, otherwise the loop runs
    with the tests of C72 and the pairwise intersection of C73. *)
Theorem C74_intersection : forall N delaunay simple a1 a2,
  match a1, a2 with
  | A4 o1, A4 o2 => forall c d, dcentroid_obj o2 = Ok c -> dball_radius_obj N (A4 o2) c = Ok d ->
      dintersection N delaunay simple a1 a2 =
      dcommon_pieces (fun t => rough_check_intersection_triangle_obj N t c d) (check_intersection_two_triangles N)
        (fun _ _ => intersection_two_triangles N delaunay) simple o1 o2
  | _, _ => dintersection N delaunay simple a1 a2 = Ok None
  end.
Proof. exact L_C74_intersection. Qed.
Print Assumptions C74_intersection.

(** The two kinds of intersection() have the same area. *)
Theorem C74_kinds : forall N delaunay o1 o2 r, tris o1 -> tris o2 ->
  dintersection N delaunay false (A4 o1) (A4 o2) = Ok (Some r) ->
  exists r', dintersection N delaunay true (A4 o1) (A4 o2) = Ok (Some r') /\ obj_area_6d (A4 r') = obj_area_6d (A4 r).
Proof. exact L_C74_kinds. Qed.
Print Assumptions C74_kinds.

(** Nothing spurious: every point of the result lies in a triangle of each object, up to
    5e-7 in barycentric coordinates.  No assumption on the triangulation; all triangles
    lie in one plane. *)
Theorem C74_sound : forall h delaunay o1 o2 r p, tris o1 -> tris o2 -> level h (concat o1) -> level h (concat o2) ->
  dintersection Rnum delaunay false (A4 o1) (A4 o2) = Ok (Some r) -> dregion r p ->
  exists t1 t2, In t1 o1 /\ In t2 o2 /\ near (1/2000000) (map dp t1) p /\ near (1/2000000) (map dp t2) p.
Proof. exact L_C74_sound. Qed.
Print Assumptions C74_sound.

(** Nothing lost: a point that lies in both objects lies in the result, or in a pair of
    triangles whose whole common part lies on one line.  [decided_pair2]: no two edges are
    nearly, but not exactly, parallel; [covers2]: whenever the triangulation succeeds, its
    non-flat triangles cover the hull of the points; it fails only for points on a line. *)
Theorem C74_nothing_lost : forall h delaunay o1 o2 r p, tris o1 -> tris o2 -> level h (concat o1) -> level h (concat o2) ->
  (forall t, In t o1 \/ In t o2 -> parea t <> 0) ->
  (forall t1 t2, In t1 o1 -> In t2 o2 -> decided_pair2 t1 t2) ->
  (forall q l, delaunay q = Some l -> covers2 q l) -> (forall q, delaunay q = None -> on_line (map pt2 q)) ->
  dintersection Rnum delaunay false (A4 o1) (A4 o2) = Ok r ->
  dregion o1 p -> dregion o2 p ->
  (exists r', r = Some r' /\ dregion r' p) \/
  (exists t1 t2, In t1 o1 /\ In t2 o2 /\ hull (map dp t1) p /\ hull (map dp t2) p /\ thin2 t1 t2).
Proof. exact L_C74_nothing_lost. Qed.
Print Assumptions C74_nothing_lost.

(** Exact arithmetic, one plane: intersection() never raises if the triangulation names
    existing points only. *)
Theorem C74_never_raises : forall h delaunay simple o1 o2, tris o1 -> tris o2 -> o2 <> [] -> level h (concat o1) -> level h (concat o2) ->
  (forall q l, delaunay q = Some l -> Forall (fun '(i, j, k) => (i < length q)%nat /\ (j < length q)%nat /\ (k < length q)%nat) l) ->
  exists r, dintersection Rnum delaunay simple (A4 o1) (A4 o2) = Ok r.
Proof. exact L_C74_never_raises. Qed.
Print Assumptions C74_never_raises.

(** select='simple' compares areas only: two copies of a triangle with half the area of t1
    make the whole of t1 the result, although half of it is outside the second object. *)
Theorem C74_simple_refuted : exists o1 o2 r p, tris o1 /\ tris o2 /\ level 0 (concat o1) /\ level 0 (concat o2) /\
  dintersection Bnum (fun _ => None) true (A4 o1) (A4 o2) = Ok (Some r) /\ dregion r p /\
  forall t2, In t2 o2 -> ~ near (1/2) (map dp t2) p.
Proof. exact L_C74_simple_refuted. Qed.
Print Assumptions C74_simple_refuted.

(** Vertices inside the tolerance can be taken up into the result: two triangles of
    non-zero area whose common part is an edge give a "triangle" with collinear vertices. *)
Theorem C74_degenerate_refuted : exists t1 t2 t, tris [t1] /\ tris [t2] /\ level 0 t1 /\ level 0 t2 /\ parea t1 <> 0 /\ parea t2 <> 0 /\
  dintersection Bnum (fun _ => None) false (A4 [t1]) (A4 [t2]) = Ok (Some [t]) /\ parea t = 0.
Proof. exact L_C74_degenerate_refuted. Qed.
Print Assumptions C74_degenerate_refuted.

(** Triangulations as assumed above exist. *)
Example C74_triangulation : exists delaunay : list (list R) -> option (list (nat * nat * nat)),
  (forall q l, delaunay q = Some l -> covers2 q l) /\ (forall q, delaunay q = None -> on_line (map pt2 q)) /\
  (forall q l, delaunay q = Some l -> Forall (fun '(i, j, k) => (i < length q)%nat /\ (j < length q)%nat /\ (k < length q)%nat) l).
Proof. exact E_C74_triangulation. Qed.

(** Two triangles that overlap without containing one another, with a common point; the
    result in binary64. *)
Example C74_ex : tris [triA] /\ tris [triB] /\ level 0 (concat [triA]) /\ level 0 (concat [triB]) /\ parea triA <> 0 /\ parea triB <> 0 /\
  decided_pair2 triA triB /\ dregion [triA] (dp (q 1 1)) /\ dregion [triB] (dp (q 1 1)) /\
  dintersection Bnum (fun _ => None) false (A4 [triA]) (A4 [triB]) = Ok (Some [[q 1 1; q 1 3; q 3 1]]).
Proof. exact E_C74_ex. Qed.

(** A run in exact arithmetic: a triangle contained in another. *)
Example C74_run : tris [triS] /\ tris [triA] /\ parea triS <> 0 /\ parea triA <> 0 /\
  dintersection Rnum (fun _ => None) false (A4 [triS]) (A4 [triA]) = Ok (Some [triS]).
Proof. exact E_C74_run. Qed.
