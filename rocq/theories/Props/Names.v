(** When every vertex is written in one way; surfaces and boundaries of objects with small
    coordinates in lowest terms: C122. *)
From Coq Require Import Reals List ZArith.
From Verif Require Import Base.Res Model.Tau Model.Arr Model.Num Model.MachineInter Model.MachineDodeInter Model.IcoDedup Model.IcoSurface Model.MachineDedup Model.MachineBorder
  Spec.LinAlg Spec.Value Spec.RVec Spec.Shape Spec.Mean Spec.IcoSpec Spec.DodeSpec Spec.Sets Spec.Space Spec.Tetra Spec.Plane Spec.Surface Spec.Region Spec.Solid Spec.Outline Spec.Edges Spec.Grid Spec.SolidFloat Spec.Samples Spec.DodeSamples.
Import ListNotations.
Local Open Scope R_scope.
From Verif Require Import Proofs.P_Names.
Import ListNotations.
Local Open Scope R_scope.

(** C122: vertices in lowest terms, all with rational coordinates or all with the same part in
    parallel space: every vertex is written in one way. *)
Theorem C122_names : forall vs, Forall (fun v => length v = 6%nat /\ canonv v) vs ->
  Forall (Forall (fun t => tb t = 0%Z)) vs \/ (forall u v, In u vs -> In v vs -> par (vals TAU u) = par (vals TAU v)) -> one_name vs.
Proof. exact L_C122_names. Qed.
Print Assumptions C122_names.

(** In dode2 the fifth coordinate, which is not seen in perpendicular space, must also be the
    same for all vertices. *)
Theorem C122_dode_names : forall vs, Forall (fun v => length v = 6%nat /\ canonv v) vs ->
  Forall (Forall (fun t => tb t = 0%Z)) vs /\ (forall u v, In u vs -> In v vs -> nth_error u 4 = nth_error v 4) \/
  (forall u v, In u vs -> In v vs -> dpar (vals SIN u) = dpar (vals SIN v)) -> done_name vs.
Proof. exact L_C122_dode_names. Qed.
Print Assumptions C122_dode_names.

(** So the surface of a face-to-face solid whose coordinates are rational numbers in lowest
    terms with a common denominator up to 5000 and numerators (on that denominator) up to 6
    is computed right in int64 and float64 ... *)
Theorem C122_surface : forall (la : linalg) (q : Z) (o : obj4),
  (0 < q <= 5000)%Z -> o <> [] -> Forall (fun t => length t = 4%nat /\ grids 6 q 6 t) o -> Forall canonv (concat o) -> Forall (Forall (fun t => tb t = 0%Z)) (concat o) ->
  (forall t, In t o -> pvol t <> 0) -> face_to_face (map (map pp) o) ->
  exists s, m_generator_surface_1 (@Bmath la) o = Ok s /\ NoDup s /\ incl s (all_faces o) /\ forall x, skin s x <-> boundary3 (region o) x.
Proof. exact L_C122_surface. Qed.
Print Assumptions C122_surface.

(** ... and so is the boundary of a flat edge-to-edge dodecagonal object whose vertices have
    the same fifth coordinate. *)
Theorem C122_boundary : forall (la : linalg) (q : Z) (h : R) (o : obj4),
  (0 < q <= 4000)%Z -> tris o -> Forall (grids 6 q 4) o -> Forall canonv (concat o) -> Forall (Forall (fun t => tb t = 0%Z)) (concat o) ->
  (forall u v, In u (concat o) -> In v (concat o) -> nth_error u 4 = nth_error v 4) ->
  level h (concat o) -> (forall t, In t o -> parea t <> 0) -> edge_to_edge (map (map dp) o) ->
  exists r, md_gen_border_edges_of_coplanar_triangles (@Bmath la) o = Ok r /\ forall x, drawn r x <-> boundary h (dregion o) x.
Proof. exact L_C122_boundary. Qed.
Print Assumptions C122_boundary.

(** The two tetrahedra of [cut] and the two triangles of [halves] meet the conditions. *)
Example C122_ex : (cut <> [] /\ Forall (fun t => length t = 4%nat /\ grids 6 1 6 t) cut /\ Forall canonv (concat cut) /\ Forall (Forall (fun t => tb t = 0%Z)) (concat cut) /\
    (forall t, In t cut -> pvol t <> 0) /\ face_to_face (map (map pp) cut)) /\
  (tris halves /\ Forall (grids 6 1 4) halves /\ Forall canonv (concat halves) /\ Forall (Forall (fun t => tb t = 0%Z)) (concat halves) /\
    (forall u v, In u (concat halves) -> In v (concat halves) -> nth_error u 4 = nth_error v 4) /\
    level 0 (concat halves) /\ (forall t, In t halves -> parea t <> 0) /\ edge_to_edge (map (map dp) halves)).
Proof. exact E_C122_ex. Qed.
