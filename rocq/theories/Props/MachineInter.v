(** The intersection of two objects computed in int64 and binary64. *)
From Coq Require Import Reals List ZArith.
From Verif Require Import Base.Res Model.Tau Model.Arr Model.Num Model.LinAlg Model.IcoMath1 Model.IcoVolume Model.IcoNumeric Model.IcoIntersect Model.MachineVec Model.MachineInter
  Spec.Value Spec.RVec Spec.Shape Spec.IcoSpec Spec.Sets Spec.Space Spec.Tetra Spec.Samples Spec.Region Spec.Overlap Spec.Convex Spec.LinAlg Spec.Float Spec.SpaceFloat Spec.Grid Spec.MachineInter.
Import ListNotations.
Local Open Scope R_scope.
From Verif Require Import Proofs.P_MachineInter.
Import ListNotations.
Local Open Scope R_scope.

(** For tetrahedra with small coordinates whose common corners have small coordinates too, the
    machine's intersection is the one of exact arithmetic with the same float64 tests,
    including when it is nothing or an exception. *)
Theorem C111_same : forall (N : num) delaunay draws (n q K : Z) (o1 o2 : obj4), at_most n delaunay -> small_objects q K o1 o2 ->
  (forall t1 t2, In t1 o1 -> In t2 o2 -> neat_pair N n t1 t2) ->
  m_intersection N delaunay draws false (A4 o1) (A4 o2) = intersection N delaunay draws false (A4 o1) (A4 o2).
Proof. exact L_C111_same. Qed.
Print Assumptions C111_same.

(** So what it returns lies in both objects, up to 2e-6 in barycentric coordinates. *)
Theorem C111_sound : forall la, linalg_ok la ->
  forall delaunay draws (n q K : Z) o1 o2 r p, at_most n delaunay -> small_objects q K o1 o2 ->
  (forall t1 t2, In t1 o1 -> In t2 o2 -> neat_pair (@Bmath la) n t1 t2 /\ exists A D, fit_pair A D t1 t2) ->
  m_intersection (@Bmath la) delaunay draws false (A4 o1) (A4 o2) = Ok (Some r) -> region r p ->
  exists t1 t2, In t1 o1 /\ In t2 o2 /\ near (2/1000000) (map pp t1) p /\ near (2/1000000) (map pp t2) p.
Proof. exact L_C111_sound. Qed.
Print Assumptions C111_sound.

(** And no common point is lost unless the common part is thin. *)
Theorem C111_all_kept : forall la, linalg_ok la ->
  forall delaunay draws (n g K : Z) o1 o2 r t1 t2 c1 c2 p q A D A' D' B, at_most n delaunay -> small_objects g K o1 o2 ->
  (forall t1 t2, In t1 o1 -> In t2 o2 -> neat_pair (@Bmath la) n t1 t2) -> In t1 o1 -> In t2 o2 ->
  triangulates3 (@Bmath la) delaunay ->
  m_intersection (@Bmath la) delaunay draws false (A4 o1) (A4 o2) = Ok r ->
  fit_pair A D t1 t2 -> steep t1 t2 -> steep t2 t1 -> tame_points (@Bmath la) A' D' t1 t2 ->
  centroid t1 = Ok c1 -> centroid_obj o2 = Ok c2 -> fit_balls B t1 c1 o2 c2 ->
  hull (map pp t1) q -> hull (map pp t2) q -> deep_by (B / 10 ^ 13) t1 c1 q \/ deep_by (B / 10 ^ 13) (concat o2) c2 q ->
  hull (map pp t1) p -> hull (map pp t2) p ->
  (exists r', r = Some r' /\ region r' p) \/ thin_by (flatness A' D') t1 t2.
Proof. exact L_C111_all_kept. Qed.
Print Assumptions C111_all_kept.

(** Two tetrahedra with a cube in common: the hypotheses hold, and the machine computes a result. *)
Example C111_ex : exists delaunay draws r, at_most 160000 delaunay /\ triangulates3 Bnum delaunay /\ small_objects 4 4 [tetP] [tetM] /\ neat_pair Bnum 160000 tetP tetM /\
  (exists A D, fit_pair A D tetP tetM) /\ m_intersection Bnum delaunay draws false (A4 [tetP]) (A4 [tetM]) = Ok (Some r).
Proof. exact E_C111_ex. Qed.

(** Coordinates 0, +-1, +-2 and +-tau are enough for the corners to be too fine for what follows:
    the common part of these two tetrahedra is a tetrahedron, found exactly, whose volume then
    comes out almost twice too large. *)
Theorem C111_volume_refuted : exists t1 t2 draws r v v', (forall delaunay, m_intersection Bnum delaunay draws false (A4 [t1]) (A4 [t2]) = Ok (Some r)) /\
  small_objects 1 2 [t1] [t2] /\ obj_volume_6d (A4 r) = Ok (Some v) /\ val TAU v = Rsum (map pvol r) /\ m_obj_volume_6d (A4 r) = Ok (Some v') /\ 1.8 * val TAU v < val TAU v'.
Proof. exact L_C111_volume_refuted. Qed.
Print Assumptions C111_volume_refuted.
