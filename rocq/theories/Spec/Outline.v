(** Edges, outlines and the boundary of a part of the perpendicular plane of dode2. *)
From Coq Require Import Reals List.
From Verif Require Import Model.Tau Model.Arr Spec.Value Spec.RVec Spec.Mean Spec.Sets Spec.DodeSpec Spec.Space Spec.Plane Spec.Surface.
Import ListNotations.
Local Open Scope R_scope.

(** Centre of a set of vertices in perpendicular space. *)
Definition dpcentre (t : vecs) : list R := mean 3 (map dppoint t).
(** Exactly one element of the list has the same corners (in perpendicular space) as e. *)
Definition donce (e : vecs) (l : obj4) : Prop :=
  exists! j, exists g, nth_error l j = Some g /\ same_set (map dppoint e) (map dppoint g).

(** The points of the plane z = h that have points of S and points outside S arbitrarily
    close to them. *)
Definition boundary (h : R) (S : R3 -> Prop) (x : R3) : Prop :=
  height x = h /\ forall eps, 0 < eps ->
    (exists y, height y = h /\ S y /\ dist3 y x < eps) /\ (exists y, height y = h /\ ~ S y /\ dist3 y x < eps).

(** Edge to edge: two different triangles of the list have different corners, and they
    meet in a common vertex, in a common edge or not at all. *)
Definition edge_to_edge (ts : list (list R3)) : Prop :=
  forall i j t u, nth_error ts i = Some t -> nth_error ts j = Some u -> i <> j ->
    ~ same_set t u /\ forall x, hull t x -> hull u x -> exists ps, incl ps t /\ incl ps u /\ hull ps x.

(** The union of a set of segments. *)
Definition drawn (es : obj4) (x : R3) : Prop := exists e, In e es /\ hull (map dp e) x.

(** No vertex is close to, but not on, the segment between two others. *)
Definition sharp (vs : vecs) : Prop :=
  forall p q r, In p vs -> In q vs -> In r vs ->
    hull [dp q; dp r] (dp p) \/ forall y, hull [dp q; dp r] y -> 3/2000 <= dist3 (dp p) y.

(** A non-empty edge-to-edge collection of triangles of non-zero area in the plane z = h. *)
Definition patch (h : R) (o : obj4) : Prop :=
  o <> [] /\ tris o /\ level h (concat o) /\ (forall t, In t o -> parea t <> 0) /\ edge_to_edge (map (map dp) o) /\ sharp (concat o).
