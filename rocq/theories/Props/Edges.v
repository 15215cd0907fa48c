(** Border edges of solids and their convex hull (ico2 generate_border_edges,
    generate_convex_hull and simplification): C96, C97. *)
From Coq Require Import Reals List ZArith Lia Lra Bool.
From Verif Require Import Base.Res Model.Tau Model.Arr Model.IcoMath1 Model.Num Model.IcoNumeric Model.IcoDedup Model.IcoIntersect Model.IcoSurface Model.DodeSurface Model.Simplify
  Spec.Value Spec.RVec Spec.Shape Spec.IcoSpec Spec.Sets Spec.Space Spec.Tetra Spec.Surface Spec.Region Spec.Solid Spec.Overlap Spec.Convex Spec.Outline Spec.Edges.
Import ListNotations.
Local Open Scope R_scope.
From Verif Require Import Proofs.P_Edges.
Import ListNotations.
Local Open Scope R_scope.

(** C96: in exact arithmetic, for a face-to-face object (s: its outer faces, C90) none of
    whose surface vertices is nearly on a line with two others, and samples with which the
    coplanarity check recognises exactly the pairs of coplanar faces, the segments returned
    cover exactly the borders of the flat parts of the surface. *)
Theorem C96_edges : forall draws o s, solid o -> generator_surface_1 Rnum o = Ok s -> sharp3 (concat s) ->
  (forall i j t u, nth_error s i = Some t -> nth_error s j = Some u -> i <> j ->
     exists b, coplanar_check_two_triangles Rnum (draws i j) t u = Ok b /\ (b = true <-> coplanar3 (map pp (t ++ u)))) ->
  exists r, generate_border_edges Rnum draws o = Ok r /\ forall x, drawn3 r x <-> on_border s x.
Proof. exact L_C96_edges. Qed.
Print Assumptions C96_edges.

(** There is at least one segment, the ends of a segment are different vertices of the
    object, and no two segments continue one another in a straight line. *)
Theorem C96_segments : forall draws o s r, solid o -> generator_surface_1 Rnum o = Ok s -> sharp3 (concat s) ->
  (forall i j t u, nth_error s i = Some t -> nth_error s j = Some u -> i <> j ->
     exists b, coplanar_check_two_triangles Rnum (draws i j) t u = Ok b /\ (b = true <-> coplanar3 (map pp (t ++ u)))) ->
  generate_border_edges Rnum draws o = Ok r ->
  r <> [] /\ (forall e, In e r -> exists u v, e = [u; v] /\ In u (concat o) /\ In v (concat o) /\ pp u <> pp v) /\
  forall i j e f p q p' s, i <> j -> nth_error r i = Some e -> nth_error r j = Some f -> ends e p q -> ends f p' s -> pp p = pp p' -> pp q <> pp s ->
    ~ hull [pp q; pp s] (pp p).
Proof. exact L_C96_segments. Qed.
Print Assumptions C96_segments.

(** Every point drawn lies on the boundary of the object, and nowhere where the boundary is
    flat: no edge is drawn inside a flat face. *)
Theorem C96_flat : forall draws o s r x, solid o -> generator_surface_1 Rnum o = Ok s -> sharp3 (concat s) ->
  (forall i j t u, nth_error s i = Some t -> nth_error s j = Some u -> i <> j ->
     exists b, coplanar_check_two_triangles Rnum (draws i j) t u = Ok b /\ (b = true <-> coplanar3 (map pp (t ++ u)))) ->
  generate_border_edges Rnum draws o = Ok r -> drawn3 r x -> boundary3 (region o) x /\ ~ flat_at (region o) x.
Proof. exact L_C96_flat. Qed.
Print Assumptions C96_flat.

(** When the coplanarity check is right: the vertices of the two triangles are in clear
    position and one of the triples sampled is spread (vs: the distinct vertices, in the
    order in which the check indexes them). *)
Theorem C96_samples : forall draws t u vs, length t = 3%nat -> length u = 3%nat -> goods 6 (t ++ u) -> remove_doubling_in_perp_space (A3 (t ++ u)) = Ok vs ->
  clear_planes (t ++ u) -> Forall (valid_draw (length vs)) draws ->
  (length vs <= 3)%nat \/ (exists i j k a b c, In (i, j, k) draws /\ nth_error vs i = Some a /\ nth_error vs j = Some b /\ nth_error vs k = Some c /\ spread (pp a) (pp b) (pp c)) ->
  exists b, coplanar_check_two_triangles Rnum draws t u = Ok b /\ (b = true <-> coplanar3 (map pp (t ++ u))).
Proof. exact L_C96_samples. Qed.
Print Assumptions C96_samples.

(** C97: under the same conditions, and if the triangulation covers the hull of its points,
    succeeds unless they are coplanar and names existing points, the hull returned
    occupies exactly the convex hull of the vertices. *)
Theorem C97_hull : forall delaunay draws o s, solid o -> generator_surface_1 Rnum o = Ok s -> sharp3 (concat s) ->
  (forall i j t u, nth_error s i = Some t -> nth_error s j = Some u -> i <> j ->
     exists b, coplanar_check_two_triangles Rnum (draws i j) t u = Ok b /\ (b = true <-> coplanar3 (map pp (t ++ u)))) ->
  (forall q l, delaunay q = Some l -> covers q l) -> (forall q, ~ coplanar3 (map pt3 q) -> exists l, delaunay q = Some l) ->
  (forall q l, delaunay q = Some l -> Forall (fun '(i, j, k, m) => (i < length q)%nat /\ (j < length q)%nat /\ (k < length q)%nat /\ (m < length q)%nat) l) ->
  exists h, generate_convex_hull Rnum delaunay draws o = Ok (Some h) /\ forall x, region h x <-> hull (map pp (concat o)) x.
Proof. exact L_C97_hull. Qed.
Print Assumptions C97_hull.

(** simplification() does not change the region of a convex object, whatever samples its
    intersection draws. *)
Theorem C97_simplify : forall delaunay draws draws2 o s r, convex_solid o -> generator_surface_1 Rnum o = Ok s -> sharp3 (concat s) ->
  (forall i j t u, nth_error s i = Some t -> nth_error s j = Some u -> i <> j ->
     exists b, coplanar_check_two_triangles Rnum (draws i j) t u = Ok b /\ (b = true <-> coplanar3 (map pp (t ++ u)))) ->
  (forall q l, delaunay q = Some l -> covers q l) ->
  simplification Rnum delaunay draws draws2 (Some o) = Ok r -> exists h, r = Some h /\ forall x, region h x <-> region o x.
Proof. exact L_C97_simplify. Qed.
Print Assumptions C97_simplify.

(** The two tetrahedra of [cut]: the four samples are always good enough, and in binary64
    the six edges of the tetrahedron they make up are returned, although its surface
    consists of six triangles. *)
Example C96_ex : solid cut /\
  (exists s, generator_surface_1 Rnum cut = Ok s /\ sharp3 (concat s) /\
    forall i j t u, nth_error s i = Some t -> nth_error s j = Some u -> i <> j ->
      exists b, coplanar_check_two_triangles Rnum [(0,1,2); (0,1,3); (0,2,3); (1,2,3)]%nat t u = Ok b /\ (b = true <-> coplanar3 (map pp (t ++ u)))) /\
  generate_border_edges Bnum (fun _ _ => [(0,1,2); (0,1,3); (0,2,3); (1,2,3)]%nat) cut =
    Ok [[at3 1 0 1 0; at3 1 0 0 0]; [at3 1 0 1 0; at3 1 0 0 1]; [at3 1 0 0 1; at3 1 0 0 0]; [at3 1 0 1 0; at3 1 2 0 0]; [at3 1 0 0 1; at3 1 2 0 0]; [at3 1 0 0 0; at3 1 2 0 0]].
Proof. exact E_C96_ex. Qed.

(** Two coplanar faces of it: five points of which three are collinear, and a triple that is spread. *)
Example C96_samples_ex : let t := [at3 1 1 0 0; at3 1 0 1 0; at3 1 0 0 0] in let u := [at3 1 1 0 0; at3 1 0 1 0; at3 1 2 0 0] in
  goods 6 (t ++ u) /\ clear_planes (t ++ u) /\
  exists vs, remove_doubling_in_perp_space (A3 (t ++ u)) = Ok vs /\ Forall (valid_draw (length vs)) [(0,1,2); (0,1,3); (0,2,3); (1,2,3)]%nat /\
  exists i j k a b c, In (i, j, k) [(0,1,2); (0,1,3); (0,2,3); (1,2,3)]%nat /\ nth_error vs i = Some a /\ nth_error vs j = Some b /\ nth_error vs k = Some c /\ spread (pp a) (pp b) (pp c).
Proof. exact E_C96_samples_ex. Qed.

(** With unlucky samples the edges depend on them: the only sample 0,2,3 hits the collinear
    points for one pair of coplanar faces, and an edge inside a flat face is returned. *)
Theorem C96_unlucky_refuted : exists o d1 d2 r1 r2 x, solid o /\ Forall (valid_draw 4) d1 /\ Forall (valid_draw 4) d2 /\
  generate_border_edges Bnum (fun _ _ => d1) o = Ok r1 /\ generate_border_edges Bnum (fun _ _ => d2) o = Ok r2 /\ ~ drawn3 r1 x /\ drawn3 r2 x.
Proof. exact L_C96_unlucky_refuted. Qed.
Print Assumptions C96_unlucky_refuted.

Example C97_ex : convex_solid cut /\
  (exists s, generator_surface_1 Rnum cut = Ok s /\ sharp3 (concat s) /\
    forall i j t u, nth_error s i = Some t -> nth_error s j = Some u -> i <> j ->
      exists b, coplanar_check_two_triangles Rnum [(0,1,2); (0,1,3); (0,2,3); (1,2,3)]%nat t u = Ok b /\ (b = true <-> coplanar3 (map pp (t ++ u)))) /\
  (exists delaunay : list (list R) -> option (list (nat * nat * nat * nat)),
    (forall q l, delaunay q = Some l -> covers q l) /\ (forall q, ~ coplanar3 (map pt3 q) -> exists l, delaunay q = Some l) /\
    (forall q l, delaunay q = Some l -> Forall (fun '(i, j, k, m) => (i < length q)%nat /\ (j < length q)%nat /\ (k < length q)%nat /\ (m < length q)%nat) l)) /\
  simplification Bnum (fun q => if Nat.eqb (length q) 4 then Some [(0,1,2,3)]%nat else None) (fun _ _ => [(0,1,2); (0,1,3); (0,2,3); (1,2,3)]%nat) (fun _ _ => [(0,1,2)]%nat) (Some cut) =
    Ok (Some [[at3 1 0 1 0; at3 1 0 0 0; at3 1 0 0 1; at3 1 2 0 0]]).
Proof. exact E_C97_ex. Qed.
