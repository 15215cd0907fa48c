(** generate_border_edges() of ico2 computed in int64 and binary64: C119. *)
From Coq Require Import Reals List ZArith.
From Verif Require Import Base.Res Model.Tau Model.Arr Model.Num Model.IcoNumeric Model.MachineInter Model.IcoDedup Model.IcoIntersect Model.IcoSurface Model.MachineDedup Model.MachineBorder Model.MachineEdges
  Spec.LinAlg Spec.Value Spec.RVec Spec.Shape Spec.Mean Spec.IcoSpec Spec.Sets Spec.Space Spec.Tetra Spec.Plane Spec.Surface Spec.Region Spec.Solid Spec.Outline Spec.Edges Spec.Grid Spec.SolidFloat Spec.Samples Spec.Convex Spec.EdgesFloat.
From Verif Require Spec.Float.
Import ListNotations.
Local Open Scope R_scope.
From Verif Require Import Proofs.P_MachineEdges.
Import ListNotations.
Local Open Scope R_scope.

(** C119: a face-to-face solid as in C115 whose edges have midpoints that are equal or told
    apart and no vertex of which is nearly on a line with two others; s are the triangles of
    its surface, and the coplanarity check answers right for every two of them.  Computed in
    int64 and binary64 with any LAPACK/BLAS within its documented error, the segments
    returned by generate_border_edges() cover exactly the borders of the flat parts of the
    surface. *)
Theorem C119_edges : forall (la : linalg), linalg_ok la -> forall (q B : Z) draws (o s : obj4),
  (0 <= B)%Z -> (0 < q <= 90000000)%Z -> (4 * B * q <= 10^15)%Z -> (3 * B <= 100 * q)%Z ->
  o <> [] -> Forall (fun t => length t = 4%nat /\ grids 6 q B t) o -> one_name (concat o) ->
  (forall t, In t o -> pvol t <> 0) -> face_to_face (map (map pp) o) ->
  (forall f g, In f (all_faces o) -> In g (all_faces o) -> pcentre f = pcentre g \/ told_apart (pcentre f) (pcentre g)) ->
  (forall e g, In e (edges_of 3 (all_faces o)) -> In g (edges_of 3 (all_faces o)) -> pcentre e = pcentre g \/ told_apart (pcentre e) (pcentre g)) ->
  sharp3 (concat o) -> m_generator_surface_1 (@Bmath la) o = Ok s ->
  (forall i j t u, nth_error s i = Some t -> nth_error s j = Some u -> i <> j ->
     exists b, m_coplanar_check_two_triangles (@Bmath la) (draws i j) t u = Ok b /\ (b = true <-> coplanar3 (map pp (t ++ u)))) ->
  exists r, m_generate_border_edges (@Bmath la) draws o = Ok r /\ forall x, drawn3 r x <-> on_border s x.
Proof. exact L_C119_edges. Qed.
Print Assumptions C119_edges.

(** Every point drawn lies on the boundary of the solid, and not where the boundary is flat;
    the ends of the segments are different vertices of the solid, and no two segments
    continue one another in a straight line. *)
Theorem C119_segments : forall (la : linalg), linalg_ok la -> forall (q B : Z) draws (o s r : obj4),
  (0 <= B)%Z -> (0 < q <= 90000000)%Z -> (4 * B * q <= 10^15)%Z -> (3 * B <= 100 * q)%Z ->
  o <> [] -> Forall (fun t => length t = 4%nat /\ grids 6 q B t) o -> one_name (concat o) ->
  (forall t, In t o -> pvol t <> 0) -> face_to_face (map (map pp) o) ->
  (forall f g, In f (all_faces o) -> In g (all_faces o) -> pcentre f = pcentre g \/ told_apart (pcentre f) (pcentre g)) ->
  (forall e g, In e (edges_of 3 (all_faces o)) -> In g (edges_of 3 (all_faces o)) -> pcentre e = pcentre g \/ told_apart (pcentre e) (pcentre g)) ->
  sharp3 (concat o) -> m_generator_surface_1 (@Bmath la) o = Ok s ->
  (forall i j t u, nth_error s i = Some t -> nth_error s j = Some u -> i <> j ->
     exists b, m_coplanar_check_two_triangles (@Bmath la) (draws i j) t u = Ok b /\ (b = true <-> coplanar3 (map pp (t ++ u)))) ->
  m_generate_border_edges (@Bmath la) draws o = Ok r ->
  r <> [] /\ (forall x, drawn3 r x -> boundary3 (region o) x /\ ~ flat_at (region o) x) /\
  (forall e, In e r -> exists u v, e = [u; v] /\ In u (concat o) /\ In v (concat o) /\ pp u <> pp v) /\
  forall i j e f p a p' z, i <> j -> nth_error r i = Some e -> nth_error r j = Some f -> ends e p a -> ends f p' z -> pp p = pp p' ->
    ~ hull [pp a; pp z] (pp p).
Proof. exact L_C119_segments. Qed.
Print Assumptions C119_segments.

(** The check answers right for two triangles of moderate size, any four vertices of which
    lie in a plane or clearly not, as soon as one sample spans a triangle that is not tiny. *)
Theorem C119_samples : forall (la : linalg), linalg_ok la -> forall (q B : Z) (A D : R) draws t u vs,
  (0 <= B)%Z -> (0 < q <= 90000000)%Z -> (B * q <= 10^15)%Z -> grids 6 q B (t ++ u) ->
  Float.tame A D (t ++ u) -> (A + D) * D ^ 2 <= 250 -> very_clear_planes (t ++ u) ->
  m_remove_doubling_in_perp_space (A3 (t ++ u)) = Ok vs -> Forall (valid_draw (length vs)) draws ->
  (length vs <= 3)%nat \/ (exists i j k a b c, In (i, j, k) draws /\ nth_error vs i = Some a /\ nth_error vs j = Some b /\ nth_error vs k = Some c /\ wide (pp a) (pp b) (pp c)) ->
  exists b, m_coplanar_check_two_triangles (@Bmath la) draws t u = Ok b /\ (b = true <-> coplanar3 (map pp (t ++ u))).
Proof. exact L_C119_samples. Qed.
Print Assumptions C119_samples.

(** All conditions are met by two tetrahedra that together make up one, with two samples;
    the inner edges of the flat faces are left out. *)
Example C119_ex : let two := fun _ _ : nat => [(0,1,2); (0,1,3)]%nat in
  cut <> [] /\ Forall (fun t => length t = 4%nat /\ grids 6 1 2 t) cut /\ one_name (concat cut) /\
  (forall t, In t cut -> pvol t <> 0) /\ face_to_face (map (map pp) cut) /\
  (forall f g, In f (all_faces cut) -> In g (all_faces cut) -> pcentre f = pcentre g \/ told_apart (pcentre f) (pcentre g)) /\
  (forall e g, In e (edges_of 3 (all_faces cut)) -> In g (edges_of 3 (all_faces cut)) -> pcentre e = pcentre g \/ told_apart (pcentre e) (pcentre g)) /\
  sharp3 (concat cut) /\ exists s, m_generator_surface_1 Bnum cut = Ok s /\
  (forall i j t u, nth_error s i = Some t -> nth_error s j = Some u -> i <> j ->
     exists b, m_coplanar_check_two_triangles Bnum (two i j) t u = Ok b /\ (b = true <-> coplanar3 (map pp (t ++ u)))) /\
  exists r, m_generate_border_edges Bnum two cut = Ok r /\ forall x, drawn3 r x <-> on_border s x.
Proof. exact E_C119_ex. Qed.
