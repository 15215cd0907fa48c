(** The edges of the tetrahedra of a solid: C123. *)
From Coq Require Import Reals List ZArith.
From Verif Require Import Base.Res Model.Tau Model.Arr Model.Num Model.IcoNumeric Model.IcoDedup Model.IcoSurface Model.MachineDedup Model.MachineBorder
  Spec.LinAlg Spec.Value Spec.RVec Spec.Shape Spec.Mean Spec.IcoSpec Spec.Sets Spec.Space Spec.Tetra Spec.Surface Spec.Region Spec.Solid Spec.Outline Spec.Edges Spec.Grid Spec.SolidFloat Spec.Samples.
Import ListNotations.
Local Open Scope R_scope.
From Verif Require Import Proofs.P_SolidEdges.
Import ListNotations.
Local Open Scope R_scope.

(** C123: in a face-to-face solid made of tetrahedra that are not flat, two edges with the
    same midpoint have the same end points: the midpoint identifies an edge. *)
Theorem C123_midpoints : forall o : obj4, Forall (fun t => length t = 4%nat /\ goods 6 t) o ->
  (forall t, In t o -> pvol t <> 0) -> face_to_face (map (map pp) o) ->
  forall e g, In e (edges_of 4 o) -> In g (edges_of 4 o) -> pcentre e = pcentre g -> same_set (map ppoint e) (map ppoint g).
Proof. exact L_C123_midpoints. Qed.
Print Assumptions C123_midpoints.

(** So for a face-to-face solid with small coordinates, in which a vertex is always written
    the same way, generator_unique_edges() run with int64 and float64 returns edges of the
    tetrahedra only, and every one of them exactly once, with no condition on midpoints. *)
Theorem C123_edges : forall (la : linalg) (q : Z) (o : obj4),
  (0 < q <= 5000)%Z -> Forall (fun t => length t = 4%nat /\ grids 6 q 6 t) o -> one_name (concat o) ->
  (forall t, In t o -> pvol t <> 0) -> face_to_face (map (map pp) o) ->
  exists r, m_generator_unique_edges (@Bmath la) 4 o = Ok r /\ incl r (edges_of 4 o) /\ NoDup r /\
    forall e, In e (edges_of 4 o) -> exists! u, In u r /\ same_set (map ppoint u) (map ppoint e).
Proof. exact L_C123_edges. Qed.
Print Assumptions C123_edges.

(** The conditions are met by two tetrahedra that share a face: of their twelve edges, three
    are shared. *)
Example C123_ex : Forall (fun t => length t = 4%nat /\ grids 6 1 6 t) cut /\ one_name (concat cut) /\
  (forall t, In t cut -> pvol t <> 0) /\ face_to_face (map (map pp) cut) /\ length (edges_of 4 cut) = 12%nat /\
  exists r, m_generator_unique_edges Bnum 4 cut = Ok r /\ incl r (edges_of 4 cut) /\ NoDup r.
Proof. exact E_C123_ex. Qed.
