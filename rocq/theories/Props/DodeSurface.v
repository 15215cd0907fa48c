(** Edges, border edges, outline and convex hull of dodecagonal objects (dode2/utils.py:298-455,
    742-790, dode2/occupation_domain.py:1084-1152): C82-C86, and C43 for dode2.  [N] is any
    arithmetic for the floating-point tests ([Rnum] exact, [Bnum] binary64); [draws i j] are
    the random samples of the coplanarity test of triangles i and j. *)
From Coq Require Import Reals List ZArith Lia Lra Bool.
From Verif Require Import Base.Res Model.Tau Model.Arr Model.Num Model.DodeArea Model.IcoSurface Model.DodeDedup Model.DodeIntersect Model.Numeric2 Model.DodeSurface
  Spec.Value Spec.RVec Spec.Shape Spec.Mean Spec.DodeSpec Spec.Sets Spec.Space Spec.Tetra Spec.Plane Spec.Surface Spec.Outline Spec.Samples Spec.DodeSamples.
Import ListNotations.
Local Open Scope R_scope.
From Verif Require Import Proofs.P_DodeSurface.
Import ListNotations.
Local Open Scope R_scope.

(** C82: the outline.  In exact arithmetic, for an edge-to-edge object in one plane whose
    triangles all pass the coplanarity test, outline() returns segments whose union is the
    topological boundary of the occupied part of the plane. *)
Theorem C82_outline : forall h draws o, patch h o ->
  (forall i j t u, nth_error o i = Some t -> nth_error o j = Some u -> i <> j -> dcoplanar_check_two_triangles Rnum (draws i j) t u = Ok true) ->
  exists r, doutline Rnum draws o = Ok r /\ forall x, drawn r x <-> boundary h (dregion o) x.
Proof. exact L_C82_outline. Qed.
Print Assumptions C82_outline.

(** The ends of the segments are different vertices of the object, and no two segments of
    the outline continue one another in a straight line. *)
Theorem C82_segments : forall h draws o r, patch h o ->
  (forall i j t u, nth_error o i = Some t -> nth_error o j = Some u -> i <> j -> dcoplanar_check_two_triangles Rnum (draws i j) t u = Ok true) ->
  doutline Rnum draws o = Ok r ->
  r <> [] /\ (forall e, In e r -> exists u v, e = [u; v] /\ In u (concat o) /\ In v (concat o) /\ dp u <> dp v) /\
  forall i j e f p q p' s, i <> j -> nth_error r i = Some e -> nth_error r j = Some f -> ends e p q -> ends f p' s -> dp p = dp p' -> dp q <> dp s ->
    ~ hull [dp q; dp s] (dp p).
Proof. exact L_C82_segments. Qed.
Print Assumptions C82_segments.

(** C83: the coplanarity test of two triangles of one plane in exact arithmetic.  [vs]: the
    different vertices.  The answer is True exactly if there are at most three of them or
    one of the random samples spans an area of at least 5e-7. *)
Theorem C83_level : forall h t u, tris [t; u] -> level h (t ++ u) ->
  exists vs, incl vs (t ++ u) /\ NoDup (map dppoint vs) /\ same_set (map dppoint vs) (map dppoint (t ++ u)) /\
    forall draws, Forall (valid_draw (length vs)) draws -> exists b, dcoplanar_check_two_triangles Rnum draws t u = Ok b /\
      (b = true <-> (length vs <= 3)%nat \/ exists i j k v0 v1 v2, In (i, j, k) draws /\ nth_error vs i = Some v0 /\ nth_error vs j = Some v1 /\ nth_error vs k = Some v2 /\
         1/1000000 <= Rabs (det2 (sub3 (dp v1) (dp v0)) (sub3 (dp v2) (dp v0)))).
Proof. exact L_C83_level. Qed.
Print Assumptions C83_level.

(** The cut is not part of the outline, and the two parts of the long side are joined. *)
Example C82_ex : patch 0 halves /\
  (forall i j t u, nth_error halves i = Some t -> nth_error halves j = Some u -> i <> j -> dcoplanar_check_two_triangles Rnum [(0, 2, 3); (0, 1, 2)]%nat t u = Ok true) /\
  doutline Bnum (fun _ _ => [(0, 2, 3); (0, 1, 2)]%nat) halves = Ok [[o6; x3]; [x22; x3]; [o6; x22]].
Proof. exact E_C82_ex. Qed.

(** Without the second assumption it fails: (0,0), (1,0), (2,0) are on one line, so if
    every random sample picks these three the two triangles count as not coplanar and the
    cut is returned as part of the outline. *)
Theorem C82_unlucky_refuted : exists draws o r x, patch 0 o /\ (forall i j, Forall (valid_draw 4) (draws i j)) /\
  doutline Bnum draws o = Ok r /\ drawn r x /\ ~ boundary 0 (dregion o) x.
Proof. exact L_C82_unlucky_refuted. Qed.
Print Assumptions C82_unlucky_refuted.

Example C83_ex : tris [[o6; x2; x3]; [x2; x22; x3]] /\ level 0 ([o6; x2; x3] ++ [x2; x22; x3]) /\ dcoplanar_check_two_triangles Rnum [(0, 2, 3); (0, 1, 2)]%nat [o6; x2; x3] [x2; x22; x3] = Ok true.
Proof. exact E_C83_ex. Qed.

(** So the answer for one pair depends on the random samples. *)
Theorem C83_random_refuted : exists h t u d1 d2, tris [t; u] /\ level h (t ++ u) /\ Forall (valid_draw 4) d1 /\ Forall (valid_draw 4) d2 /\
  dcoplanar_check_two_triangles Rnum d1 t u = Ok true /\ dcoplanar_check_two_triangles Rnum d2 t u = Ok false.
Proof. exact L_C83_random_refuted. Qed.
Print Assumptions C83_random_refuted.

(** C84: the edges of a list of segments (n2 = 2) or triangles (n2 = 3), in exact
    arithmetic: one edge for every midpoint, the first in the order of the list. *)
Theorem C84_unique_edges : forall n2 o, (n2 = 2 \/ n2 = 3)%nat -> Forall (fun t => length t = n2 /\ goods 6 t) o ->
  exists r, dgenerator_unique_edges Rnum n2 o = Ok r /\ incl r (edges_of n2 o) /\ NoDup (map dpcentre r) /\
    (forall e, In e (edges_of n2 o) -> exists! u, In u r /\ dpcentre u = dpcentre e) /\
    (forall e, In e r -> exists i, nth_error (edges_of n2 o) i = Some e /\
       forall j g, (j < i)%nat -> nth_error (edges_of n2 o) j = Some g -> dpcentre g <> dpcentre e).
Proof. exact L_C84_unique_edges. Qed.
Print Assumptions C84_unique_edges.

(** Two edges that cross at their midpoints count as one: one of them is lost. *)
Theorem C84_edge_lost_refuted : exists o e r, tris o /\ In e (edges_of 3 o) /\ dgenerator_unique_edges Rnum 3 o = Ok r /\
  forall g, In g r -> ~ same_set (map dppoint e) (map dppoint g).
Proof. exact L_C84_edge_lost_refuted. Qed.
Print Assumptions C84_edge_lost_refuted.

(** The border edges of a set of triangles: in any arithmetic, only edges of exactly one
    triangle are returned ... *)
Theorem C84_border : forall N ts r, Forall (fun t => length t = 3%nat /\ goods 6 t /\ NoDup (map dppoint t)) ts ->
  dgen_border_edges_of_coplanar_triangles N ts = Ok r -> forall e, In e r -> In e (edges_of 3 ts) /\ donce e (edges_of 3 ts).
Proof. exact L_C84_border. Qed.
Print Assumptions C84_border.

(** ... and in exact arithmetic all of these, for an edge-to-edge object. *)
Theorem C84_patch_border : forall h o, patch h o ->
  exists r, dgen_border_edges_of_coplanar_triangles Rnum o = Ok r /\ forall e, In e r <-> In e (edges_of 3 o) /\ donce e (edges_of 3 o).
Proof. exact L_C84_patch_border. Qed.
Print Assumptions C84_patch_border.

Example C84_ex : patch 0 halves /\ Forall (fun t => length t = 3%nat /\ goods 6 t) halves /\
  dgen_border_edges_of_coplanar_triangles Bnum halves = Ok [[o6; x3]; [o6; x2]; [x22; x3]; [x2; x22]].
Proof. exact E_C84_ex. Qed.

(** C85: generate_border_edges() of dode2 calls a function that does not exist there. *)
Theorem C85_attribute : forall N draws o, dgenerate_border_edges N draws None o = Raise AttributeError.
Proof. exact L_C85_attribute. Qed.
Print Assumptions C85_attribute.

(** If that function returned all triangles it would be outline(). *)
Theorem C85_outline : forall N draws o, dgenerate_border_edges N draws (Some (fun o => Ok o)) o = doutline N draws o.
Proof. exact L_C85_outline. Qed.
Print Assumptions C85_outline.

(** C86: the convex hull, in any arithmetic, for any triangulation and any random samples:
    all vertices of the result are vertices of the object, and no triangle of it is flat. *)
Theorem C86_vertices : forall N delaunay draws o r, tris o -> o <> [] -> dgenerate_convex_hull N delaunay draws o = Ok (Some r) ->
  tris r /\ incl (concat r) (concat o) /\ r <> [] /\ forall t, In t r -> parea t <> 0.
Proof. exact L_C86_vertices. Qed.
Print Assumptions C86_vertices.

(** In exact arithmetic, for an edge-to-edge object whose triangles all pass the
    coplanarity test and a triangulation that covers the hull of its points and fails only
    for points on a line, the result occupies exactly the convex hull of the vertices. *)
Theorem C86_hull : forall h delaunay draws o, patch h o ->
  (forall i j t u, nth_error o i = Some t -> nth_error o j = Some u -> i <> j -> dcoplanar_check_two_triangles Rnum (draws i j) t u = Ok true) ->
  (forall q l, delaunay q = Some l -> covers2 q l) -> (forall q, delaunay q = None -> on_line (map pt2 q)) ->
  (forall q l, delaunay q = Some l -> Forall (fun '(i, j, k) => (i < length q)%nat /\ (j < length q)%nat /\ (k < length q)%nat) l) ->
  exists r, dgenerate_convex_hull Rnum delaunay draws o = Ok (Some r) /\ forall x, dregion r x <-> hull (map dp (concat o)) x.
Proof. exact L_C86_hull. Qed.
Print Assumptions C86_hull.

Example C86_ex : patch 0 halves /\
  (forall i j t u, nth_error halves i = Some t -> nth_error halves j = Some u -> i <> j -> dcoplanar_check_two_triangles Rnum [(0, 2, 3); (0, 1, 2)]%nat t u = Ok true) /\
  (exists delaunay : list (list R) -> option (list (nat * nat * nat)),
    (forall q l, delaunay q = Some l -> covers2 q l) /\ (forall q, delaunay q = None -> on_line (map pt2 q)) /\
    (forall q l, delaunay q = Some l -> Forall (fun '(i, j, k) => (i < length q)%nat /\ (j < length q)%nat /\ (k < length q)%nat) l)) /\
  dgenerate_convex_hull Bnum (fun _ => Some [(0, 1, 2)]%nat) (fun _ _ => [(0, 2, 3); (0, 1, 2)]%nat) halves = Ok (Some [[o6; x3; x22]]).
Proof. exact E_C86_ex. Qed.

(** C43 for dode2: with the actual hull and intersection in double precision, and a correct
    triangulation of the four vertices, this object of two triangles is replaced by one
    with twice its area. *)
Theorem C43_dode_area_refuted : exists o delaunay draws h v w, tris o /\
  dsimplification Bnum delaunay draws (Some o) = Ok (Some h) /\
  obj_area_6d (A4 o) = Ok (Some v) /\ obj_area_6d (A4 h) = Ok (Some w) /\ val SIN w = 2 * val SIN v /\ 0 < val SIN v.
Proof. exact L_C43_dode_area_refuted. Qed.
Print Assumptions C43_dode_area_refuted.
