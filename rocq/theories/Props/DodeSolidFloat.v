(** Unique edges and border edges of dode2 computed in int64 and binary64: C116. *)
From Coq Require Import Reals List ZArith.
From Verif Require Import Base.Res Model.Tau Model.Arr Model.Num Model.DodeDedup Model.DodeIntersect Model.IcoSurface Model.DodeSurface Model.MachineDedup Model.MachineBorder
  Spec.LinAlg Spec.Value Spec.RVec Spec.Shape Spec.Mean Spec.DodeSpec Spec.Sets Spec.Space Spec.Tetra Spec.Plane Spec.Surface Spec.Outline Spec.Grid Spec.SolidFloat Spec.Samples Spec.DodeSamples.
Import ListNotations.
Local Open Scope R_scope.
From Verif Require Import Proofs.P_DodeSolidFloat.
Import ListNotations.
Local Open Scope R_scope.

(** C116: triangles on a common denominator with coordinates of moderate size, every vertex
    written in one way; two edges have the same end points or clearly different midpoints.
    Computed in int64 and binary64, one segment is returned for every edge ... *)
Theorem C116_edges : forall (la : linalg) (q B : Z) (o : obj4),
  (0 <= B)%Z -> (0 < q <= 90000000)%Z -> (4 * B * q <= 10^15)%Z -> (3 * B <= 100000 * q)%Z ->
  Forall (fun t => length t = 3%nat /\ grids 6 q B t) o -> done_name (concat o) -> Forall (fun t => NoDup (map dppoint t)) o ->
  (forall e g, In e (edges_of 3 o) -> In g (edges_of 3 o) -> same_set (map dppoint e) (map dppoint g) \/ told_apart (dpcentre e) (dpcentre g)) ->
  exists r, md_generator_unique_edges (@Bmath la) 3 o = Ok r /\ incl r (edges_of 3 o) /\ NoDup r /\
    forall e, In e (edges_of 3 o) -> exists! u, In u r /\ same_set (map dppoint u) (map dppoint e).
Proof. exact L_C116_edges. Qed.
Print Assumptions C116_edges.

Theorem C116_border : forall (la : linalg) (q B : Z) (o : obj4),
  (0 <= B)%Z -> (0 < q <= 20000000)%Z -> (B * q <= 10^14)%Z -> (3 * B <= 100000 * q)%Z ->
  Forall (fun t => length t = 3%nat /\ grids 6 q B t) o -> done_name (concat o) -> Forall (fun t => NoDup (map dppoint t)) o ->
  (forall e g, In e (edges_of 3 o) -> In g (edges_of 3 o) -> same_set (map dppoint e) (map dppoint g) \/ told_apart (dpcentre e) (dpcentre g)) ->
  exists r, md_gen_border_edges_of_coplanar_triangles (@Bmath la) o = Ok r /\ forall e, In e r <-> In e (edges_of 3 o) /\ donce e (edges_of 3 o).
Proof. exact L_C116_border. Qed.
Print Assumptions C116_border.

Theorem C116_boundary : forall (la : linalg) (q B : Z) (h : R) (o : obj4),
  (0 <= B)%Z -> (0 < q <= 20000000)%Z -> (B * q <= 10^14)%Z -> (3 * B <= 100000 * q)%Z ->
  tris o -> Forall (grids 6 q B) o -> level h (concat o) -> (forall t, In t o -> parea t <> 0) -> edge_to_edge (map (map dp) o) -> done_name (concat o) ->
  (forall e g, In e (edges_of 3 o) -> In g (edges_of 3 o) -> dpcentre e = dpcentre g \/ told_apart (dpcentre e) (dpcentre g)) ->
  exists r, md_gen_border_edges_of_coplanar_triangles (@Bmath la) o = Ok r /\ forall x, drawn r x <-> boundary h (dregion o) x.
Proof. exact L_C116_boundary. Qed.
Print Assumptions C116_boundary.

(** The triangle cut into two: all conditions are met and the cut is not a border edge. *)
Example C116_ex : patch 0 halves /\ Forall (grids 6 1 2) halves /\ done_name (concat halves) /\
  (forall e g, In e (edges_of 3 halves) -> In g (edges_of 3 halves) -> same_set (map dppoint e) (map dppoint g) \/ told_apart (dpcentre e) (dpcentre g)) /\
  (forall e g, In e (edges_of 3 halves) -> In g (edges_of 3 halves) -> dpcentre e = dpcentre g \/ told_apart (dpcentre e) (dpcentre g)) /\
  exists r, md_gen_border_edges_of_coplanar_triangles Bnum halves = Ok r /\ ~ In [x2; x3] r /\ ~ In [x3; x2] r.
Proof. exact E_C116_ex. Qed.
