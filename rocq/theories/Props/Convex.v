(** Intersection of convex objects (ico2/two_occupation_domains.py intersection_convex): C91. *)
From Coq Require Import Reals List ZArith Lia Lra Bool.
From Verif Require Import Base.Res Model.Tau Model.Arr Model.Num Model.IcoIntersect Model.Convex
  Spec.Value Spec.RVec Spec.Shape Spec.Mean Spec.IcoSpec Spec.Sets Spec.Space Spec.Tetra Spec.Region Spec.Surface Spec.Solid Spec.Overlap Spec.Samples Spec.Convex.
Import ListNotations.
Local Open Scope R_scope.
From Verif Require Import Proofs.P_Convex.
Import ListNotations.
Local Open Scope R_scope.

(** C91: in exact arithmetic, if the first solid lies in the second it is returned unchanged. *)
Theorem C91_first_inside : forall delaunay o1 o2, well_placed o1 o2 -> within o1 o2 ->
  intersection_convex Rnum delaunay (A4 o1) (A4 o2) = Ok (Some o1).
Proof. exact L_C91_first_inside. Qed.
Print Assumptions C91_first_inside.

(** Otherwise, if the second lies in the first, the second is. *)
Theorem C91_second_inside : forall delaunay o1 o2, well_placed o1 o2 -> ~ within o1 o2 -> within o2 o1 ->
  intersection_convex Rnum delaunay (A4 o1) (A4 o2) = Ok (Some o2).
Proof. exact L_C91_second_inside. Qed.
Print Assumptions C91_second_inside.

(** The empty result is returned exactly for disjoint solids, unless the triangulation itself returns nothing. *)
Theorem C91_disjoint : forall delaunay o1 o2, well_placed o1 o2 -> (forall x, ~ (region o1 x /\ region o2 x)) ->
  intersection_convex Rnum delaunay (A4 o1) (A4 o2) = Ok None.
Proof. exact L_C91_disjoint. Qed.
Print Assumptions C91_disjoint.

(** If the solids overlap, neither contains the other and each has a corner in the other, the
    points handed to the triangulation span exactly the common part. *)
Theorem C91_points : forall delaunay o1 o2 p1 p2, well_placed o1 o2 -> ~ within o1 o2 -> ~ within o2 o1 ->
  outer_corner o1 p1 -> region o2 p1 -> outer_corner o2 p2 -> region o1 p2 ->
  exists pts, goods 6 pts /\ (forall x, hull (map pp pts) x <-> region o1 x /\ region o2 x) /\
    intersection_convex Rnum delaunay (A4 o1) (A4 o2) = tetrahedralization_points Rnum delaunay pts.
Proof. exact L_C91_points. Qed.
Print Assumptions C91_points.

(** If they overlap but one of them has no corner in the other, the function raises. *)
Theorem C91_raises : forall delaunay o1 o2 x, well_placed o1 o2 -> ~ within o1 o2 -> ~ within o2 o1 -> region o1 x -> region o2 x ->
  ((forall p, outer_corner o1 p -> ~ region o2 p) \/ (forall p, outer_corner o2 p -> ~ region o1 p)) ->
  intersection_convex Rnum delaunay (A4 o1) (A4 o2) = Raise UnboundLocalError.
Proof. exact L_C91_raises. Qed.
Print Assumptions C91_raises.

(** Whatever is returned occupies exactly the common part, if the triangulation covers the
    hull of its points. *)
Theorem C91_region : forall delaunay o1 o2 r x, well_placed o1 o2 -> (forall q l, delaunay q = Some l -> covers q l) ->
  intersection_convex Rnum delaunay (A4 o1) (A4 o2) = Ok r ->
  ((exists c, r = Some c /\ region c x) <-> region o1 x /\ region o2 x).
Proof. exact L_C91_region. Qed.
Print Assumptions C91_region.

(** Arguments that are not arrays of tetrahedra give no result. *)
Theorem C91_shape : forall N delaunay a1 a2, (forall o, a1 <> A4 o) \/ (forall o, a2 <> A4 o) -> intersection_convex N delaunay a1 a2 = Ok None.
Proof. exact L_C91_shape. Qed.
Print Assumptions C91_shape.

(** A tetrahedron and its mirror image: each has one corner inside the other, and they share a parallelepiped. *)
Example C91_ex : well_placed [tetP] [tetM] /\ ~ within [tetP] [tetM] /\ ~ within [tetM] [tetP] /\
  outer_corner [tetP] (pp (at3 1 0 0 0)) /\ region [tetM] (pp (at3 1 0 0 0)) /\ outer_corner [tetM] (pp (at3 4 1 1 1)) /\ region [tetP] (pp (at3 4 1 1 1)).
Proof. exact E_C91_ex. Qed.

(** The same pair in binary64, with a triangulation of the eight points that returns one tetrahedron. *)
Example C91_run : intersection_convex Bnum (fun q => if Nat.eqb (length q) 8 then Some [(0, 1, 2, 7)%nat] else None) (A4 [tetP]) (A4 [tetM]) =
  Ok (Some [[at3q 0 1 0; at3q 0 1 1; at3q 1 1 0; at3q 1 0 1]]).
Proof. exact E_C91_run. Qed.

(** A tetrahedron contained in another (itself), and two disjoint ones. *)
Example C91_more : well_placed [tetP] [tetP] /\ within [tetP] [tetP] /\ well_placed [tetP] [tetF] /\ (forall x, ~ (region [tetP] x /\ region [tetF] x)).
Proof. exact E_C91_more. Qed.

(** So two overlapping tetrahedra can make the function raise, in exact arithmetic and in
    binary64: a spike whose tip is inside a tetrahedron. *)
Theorem C91_overlap_refuted : exists o1 o2 x, well_placed o1 o2 /\ region o1 x /\ region o2 x /\
  (forall delaunay, intersection_convex Rnum delaunay (A4 o1) (A4 o2) = Raise UnboundLocalError) /\
  (forall delaunay, intersection_convex Bnum delaunay (A4 o1) (A4 o2) = Raise UnboundLocalError).
Proof. exact L_C91_overlap_refuted. Qed.
Print Assumptions C91_overlap_refuted.
