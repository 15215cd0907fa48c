(** Solids built from tetrahedra in perpendicular space, and their surfaces. *)
From Coq Require Import Reals List.
From Verif Require Import Model.Tau Model.Arr Spec.Value Spec.RVec Spec.Sets Spec.Shape Spec.IcoSpec Spec.Space Spec.Region Spec.Surface.
Import ListNotations.
Local Open Scope R_scope.

(** The points that have points of S and points outside S arbitrarily close to them. *)
Definition boundary3 (S : R3 -> Prop) (x : R3) : Prop :=
  forall eps, 0 < eps -> (exists y, S y /\ dist3 y x < eps) /\ (exists y, ~ S y /\ dist3 y x < eps).

(** Face to face: two different tetrahedra of the list have different corners, and they
    meet in a common face, edge or vertex or not at all. *)
Definition face_to_face (ts : list (list R3)) : Prop :=
  forall i j t u, nth_error ts i = Some t -> nth_error ts j = Some u -> i <> j ->
    ~ same_set t u /\ forall x, hull t x -> hull u x -> exists ps, incl ps t /\ incl ps u /\ hull ps x.

(** The union of a set of triangles. *)
Definition skin (fs : obj4) (x : R3) : Prop := exists f, In f fs /\ hull (map pp f) x.

(** A non-empty face-to-face collection of tetrahedra of non-zero volume; the centres of
    different faces are not confused by np.allclose. *)
Definition solid (o : obj4) : Prop :=
  o <> [] /\ tets o /\ (forall t, In t o -> pvol t <> 0) /\ face_to_face (map (map pp) o) /\
  (forall f g, In f (all_faces o) -> In g (all_faces o) -> pcentre f = pcentre g \/ apart (pcentre f) (pcentre g)).
