(** The edges of the triangles of a flat dodecagonal object: C123. *)
From Coq Require Import Reals List ZArith.
From Verif Require Import Base.Res Model.Tau Model.Arr Model.Num Model.DodeDedup Model.DodeIntersect Model.IcoSurface Model.DodeSurface Model.MachineDedup Model.MachineBorder
  Spec.LinAlg Spec.Value Spec.RVec Spec.Shape Spec.Mean Spec.DodeSpec Spec.Sets Spec.Space Spec.Tetra Spec.Plane Spec.Surface Spec.Outline Spec.Grid Spec.SolidFloat Spec.Samples Spec.DodeSamples.
Import ListNotations.
Local Open Scope R_scope.
From Verif Require Import Proofs.P_PatchEdges.
Import ListNotations.
Local Open Scope R_scope.

(** C123 in dode2: in a flat edge-to-edge object made of triangles that are not flat, two
    edges with the same midpoint have the same end points. *)
Theorem C123_dode_midpoints : forall (h : R) (o : obj4), tris o -> level h (concat o) ->
  (forall t, In t o -> parea t <> 0) -> edge_to_edge (map (map dp) o) ->
  forall e g, In e (edges_of 3 o) -> In g (edges_of 3 o) -> dpcentre e = dpcentre g -> same_set (map dppoint e) (map dppoint g).
Proof. exact L_C123_dode_midpoints. Qed.
Print Assumptions C123_dode_midpoints.

(** With small coordinates, generator_unique_edges() of dode2 run with int64 and float64
    returns edges of the triangles only, and every one of them exactly once. *)
Theorem C123_dode_edges : forall (la : linalg) (q : Z) (h : R) (o : obj4),
  (0 < q <= 4000)%Z -> tris o -> Forall (grids 6 q 4) o -> level h (concat o) -> (forall t, In t o -> parea t <> 0) -> edge_to_edge (map (map dp) o) -> done_name (concat o) ->
  exists r, md_generator_unique_edges (@Bmath la) 3 o = Ok r /\ incl r (edges_of 3 o) /\ NoDup r /\
    forall e, In e (edges_of 3 o) -> exists! u, In u r /\ same_set (map dppoint u) (map dppoint e).
Proof. exact L_C123_dode_edges. Qed.
Print Assumptions C123_dode_edges.

(** The conditions are met by a triangle cut into two: of the six edges one is shared. *)
Example C123_dode_ex : tris halves /\ Forall (grids 6 1 4) halves /\ level 0 (concat halves) /\ (forall t, In t halves -> parea t <> 0) /\ edge_to_edge (map (map dp) halves) /\ done_name (concat halves) /\
  length (edges_of 3 halves) = 6%nat /\ exists r, md_generator_unique_edges Bnum 3 halves = Ok r /\ incl r (edges_of 3 halves) /\ NoDup r.
Proof. exact E_C123_dode_ex. Qed.
