(** Solids with small coordinates computed in int64 and binary64: C120. *)
From Coq Require Import Reals List ZArith.
From Verif Require Import Base.Res Model.Tau Model.Arr Model.Num Model.IcoNumeric Model.MachineInter Model.IcoDedup Model.IcoIntersect Model.IcoSurface Model.MachineDedup Model.MachineBorder Model.MachineEdges
  Spec.LinAlg Spec.Value Spec.RVec Spec.Shape Spec.Mean Spec.IcoSpec Spec.Sets Spec.Space Spec.Tetra Spec.Plane Spec.Surface Spec.Region Spec.Solid Spec.Outline Spec.Edges Spec.Grid Spec.SolidFloat Spec.Samples Spec.Convex Spec.EdgesFloat.
From Verif Require Spec.Float.
Import ListNotations.
Local Open Scope R_scope.
From Verif Require Import Proofs.P_SmallSolid.
Import ListNotations.
Local Open Scope R_scope.

(** C120: when the coordinates, brought to a common denominator of at most 5000, have
    numerators up to 6, the centres of two faces (or of two edges) are the same point or are
    told apart by the float64 comparison. *)
Theorem C120_centres : forall (q : Z) f g, (0 < q <= 5000)%Z -> grids 6 q 6 f -> grids 6 q 6 g ->
  (length f = 2 \/ length f = 3)%nat -> length g = length f -> pcentre f = pcentre g \/ told_apart (pcentre f) (pcentre g).
Proof. exact L_C120_centres. Qed.
Print Assumptions C120_centres.

(** So the surface of a face-to-face solid with such coordinates, computed in int64 and
    float64, is its boundary, with no condition on the centres. *)
Theorem C120_surface : forall (la : linalg) (q : Z) (o : obj4),
  (0 < q <= 5000)%Z -> o <> [] -> Forall (fun t => length t = 4%nat /\ grids 6 q 6 t) o -> one_name (concat o) ->
  (forall t, In t o -> pvol t <> 0) -> face_to_face (map (map pp) o) ->
  exists s, m_generator_surface_1 (@Bmath la) o = Ok s /\ NoDup s /\ incl s (all_faces o) /\ forall x, skin s x <-> boundary3 (region o) x.
Proof. exact L_C120_surface. Qed.
Print Assumptions C120_surface.

(** With denominators up to 7 the coplanarity check answers right for two triangles of
    moderate size as soon as one sample consists of three points that are not on one line. *)
Theorem C120_check : forall (la : linalg), linalg_ok la -> forall (q : Z) (A D : R) draws t u vs,
  (0 < q <= 7)%Z -> grids 6 q 6 (t ++ u) -> Float.tame A D (t ++ u) -> (A + D) * D ^ 2 <= 250 ->
  m_remove_doubling_in_perp_space (A3 (t ++ u)) = Ok vs ->
  (length vs <= 3)%nat \/ Forall (valid_draw (length vs)) draws /\ (exists i j k a b c, In (i, j, k) draws /\ nth_error vs i = Some a /\ nth_error vs j = Some b /\ nth_error vs k = Some c /\
     cross3 (sub3 (pp b) (pp a)) (sub3 (pp c) (pp a)) <> o3) ->
  exists b, m_coplanar_check_two_triangles (@Bmath la) draws t u = Ok b /\ (b = true <-> coplanar3 (map pp (t ++ u))).
Proof. exact L_C120_check. Qed.
Print Assumptions C120_check.

(** Together: a face-to-face solid of moderate size with small coordinates, no vertex of which
    is nearly on a line with two others.  If, for every two triangles of the surface with more
    than three different vertices, one of the samples drawn is not on one line, then
    generate_border_edges() run with int64 and float64 draws exactly the borders of the flat
    parts of the surface; what it draws lies where the boundary of the solid is not flat. *)
Theorem C120_edges : forall (la : linalg), linalg_ok la -> forall (q : Z) (A D : R) draws (o s : obj4),
  (0 < q <= 7)%Z -> o <> [] -> Forall (fun t => length t = 4%nat /\ grids 6 q 6 t) o -> one_name (concat o) ->
  (forall t, In t o -> pvol t <> 0) -> face_to_face (map (map pp) o) ->
  sharp3 (concat o) -> Float.tame A D (concat o) -> (A + D) * D ^ 2 <= 250 -> m_generator_surface_1 (@Bmath la) o = Ok s ->
  (forall i j t u vs, nth_error s i = Some t -> nth_error s j = Some u -> i <> j -> m_remove_doubling_in_perp_space (A3 (t ++ u)) = Ok vs ->
     (length vs <= 3)%nat \/ Forall (valid_draw (length vs)) (draws i j) /\
     (exists x y z a b c, In (x, y, z) (draws i j) /\ nth_error vs x = Some a /\ nth_error vs y = Some b /\ nth_error vs z = Some c /\
        cross3 (sub3 (pp b) (pp a)) (sub3 (pp c) (pp a)) <> o3)) ->
  exists r, m_generate_border_edges (@Bmath la) draws o = Ok r /\ (forall x, drawn3 r x <-> on_border s x) /\
    (forall x, drawn3 r x -> boundary3 (region o) x /\ ~ flat_at (region o) x).
Proof. exact L_C120_edges. Qed.
Print Assumptions C120_edges.

Example C120_ex : let two := fun _ _ : nat => [(0,1,2); (0,1,3)]%nat in
  cut <> [] /\ Forall (fun t => length t = 4%nat /\ grids 6 1 6 t) cut /\ one_name (concat cut) /\
  (forall t, In t cut -> pvol t <> 0) /\ face_to_face (map (map pp) cut) /\ sharp3 (concat cut) /\ Float.tame 2 5 (concat cut) /\ (2 + 5) * 5 ^ 2 <= 250 /\
  exists s, m_generator_surface_1 Bnum cut = Ok s /\ (forall x, skin s x <-> boundary3 (region cut) x) /\
  (forall i j t u vs, nth_error s i = Some t -> nth_error s j = Some u -> i <> j -> m_remove_doubling_in_perp_space (A3 (t ++ u)) = Ok vs ->
     (length vs <= 3)%nat \/ Forall (valid_draw (length vs)) (two i j) /\
     (exists x y z a b c, In (x, y, z) (two i j) /\ nth_error vs x = Some a /\ nth_error vs y = Some b /\ nth_error vs z = Some c /\
        cross3 (sub3 (pp b) (pp a)) (sub3 (pp c) (pp a)) <> o3)) /\
  exists r, m_generate_border_edges Bnum two cut = Ok r /\ (forall x, drawn3 r x <-> on_border s x).
Proof. exact E_C120_ex. Qed.
