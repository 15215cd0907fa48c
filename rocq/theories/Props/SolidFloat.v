(** Surfaces, unique triangles and unique edges computed in int64 and binary64: C115. *)
From Coq Require Import Reals List ZArith.
From Verif Require Import Base.Res Model.Tau Model.Arr Model.Num Model.IcoDedup Model.IcoSurface Model.MachineDedup Model.MachineBorder
  Spec.LinAlg Spec.Value Spec.RVec Spec.Shape Spec.Mean Spec.IcoSpec Spec.Sets Spec.Space Spec.Region Spec.Surface Spec.Solid Spec.Grid Spec.SolidFloat Spec.Samples.
Import ListNotations.
Local Open Scope R_scope.
From Verif Require Import Proofs.P_SolidFloat.
Import ListNotations.
Local Open Scope R_scope.

(** C115: a face-to-face solid of tetrahedra on a common denominator, with coordinates of
    moderate size and every vertex written in one way; the centres of different faces differ
    by more than twice the tolerance of np.allclose.  Computed entirely in int64 and binary64,
    the triangles returned cover exactly the boundary of the solid. *)
Theorem C115_surface : forall (la : linalg) (q B : Z) (o : obj4),
  (0 <= B)%Z -> (0 < q <= 90000000)%Z -> (4 * B * q <= 10^15)%Z -> (3 * B <= 100000 * q)%Z ->
  o <> [] -> Forall (fun t => length t = 4%nat /\ grids 6 q B t) o -> one_name (concat o) ->
  (forall t, In t o -> pvol t <> 0) -> face_to_face (map (map pp) o) ->
  (forall f g, In f (all_faces o) -> In g (all_faces o) -> pcentre f = pcentre g \/ told_apart (pcentre f) (pcentre g)) ->
  exists r, m_generator_surface_1 (@Bmath la) o = Ok r /\ NoDup r /\ incl r (all_faces o) /\ forall x, skin r x <-> boundary3 (region o) x.
Proof. exact L_C115_surface. Qed.
Print Assumptions C115_surface.

Theorem C115_triangles : forall (la : linalg) (q B : Z) (o : obj4),
  (0 <= B)%Z -> (0 < q <= 90000000)%Z -> (4 * B * q <= 10^15)%Z -> (3 * B <= 100000 * q)%Z ->
  length o <> 1%nat -> Forall (fun t => length t = 4%nat /\ grids 6 q B t) o -> one_name (concat o) -> Forall (fun t => NoDup (map ppoint t)) o ->
  (forall f g, In f (all_faces o) -> In g (all_faces o) -> same_set (map ppoint f) (map ppoint g) \/ told_apart (pcentre f) (pcentre g)) ->
  exists r, m_generator_unique_triangles (@Bmath la) o = Ok r /\ incl r (all_faces o) /\ NoDup r /\
    forall f, In f (all_faces o) -> exists! u, In u r /\ same_set (map ppoint u) (map ppoint f).
Proof. exact L_C115_triangles. Qed.
Print Assumptions C115_triangles.

Theorem C115_edges : forall (la : linalg) (n : nat) (q B : Z) (o : obj4),
  (0 <= B)%Z -> (0 < q <= 90000000)%Z -> (4 * B * q <= 10^15)%Z -> (3 * B <= 100000 * q)%Z ->
  n = 3%nat \/ n = 4%nat -> Forall (fun t => length t = n /\ grids 6 q B t) o -> one_name (concat o) -> Forall (fun t => NoDup (map ppoint t)) o ->
  (forall e g, In e (edges_of n o) -> In g (edges_of n o) -> same_set (map ppoint e) (map ppoint g) \/ told_apart (pcentre e) (pcentre g)) ->
  exists r, m_generator_unique_edges (@Bmath la) n o = Ok r /\ incl r (edges_of n o) /\ NoDup r /\
    forall e, In e (edges_of n o) -> exists! u, In u r /\ same_set (map ppoint u) (map ppoint e).
Proof. exact L_C115_edges. Qed.
Print Assumptions C115_edges.

Theorem C115_border : forall (la : linalg) (q B : Z) (o : obj4),
  (0 <= B)%Z -> (0 < q <= 90000000)%Z -> (4 * B * q <= 10^15)%Z -> (3 * B <= 100000 * q)%Z ->
  Forall (fun t => length t = 3%nat /\ grids 6 q B t) o -> one_name (concat o) -> Forall (fun t => NoDup (map ppoint t)) o ->
  (forall e g, In e (edges_of 3 o) -> In g (edges_of 3 o) -> same_set (map ppoint e) (map ppoint g) \/ told_apart (pcentre e) (pcentre g)) ->
  exists r, m_gen_border_edges_of_coplanar_triangles (@Bmath la) o = Ok r /\ forall e, In e r <-> In e (edges_of 3 o) /\ once e (edges_of 3 o).
Proof. exact L_C115_border. Qed.
Print Assumptions C115_border.

(** Two tetrahedra glued along a face: all conditions are met, and the common face is left out
    of the surface. *)
Example C115_ex : Forall (fun t => length t = 4%nat /\ grids 6 1 1 t) dented /\ one_name (concat dented) /\
  (forall t, In t dented -> pvol t <> 0) /\ face_to_face (map (map pp) dented) /\
  (forall f g, In f (all_faces dented) -> In g (all_faces dented) -> pcentre f = pcentre g \/ told_apart (pcentre f) (pcentre g)) /\
  (forall e g, In e (edges_of 4 dented) -> In g (edges_of 4 dented) -> same_set (map ppoint e) (map ppoint g) \/ told_apart (pcentre e) (pcentre g)) /\
  m_generator_surface_1 Bnum dented = Ok [[o6; x2; e6]; [x1; x2; e6]; [o6; x2; x4]; [o6; x1; e6]; [x1; x2; x4]; [o6; x1; x4]].
Proof. exact E_C115_ex. Qed.
