(** What it means that the intersection of two objects is geometrically right. *)
From Coq Require Import Reals List ZArith.
From Verif Require Import Model.Tau Model.Arr Spec.RVec Spec.Sets Spec.Space Spec.Tetra Spec.Region.
Import ListNotations.
Local Open Scope R_scope.

(** Barycentric coordinates at least -h: the hull slightly enlarged. *)
Definition near (h : R) (ps : list R3) (p : R3) : Prop := exists ws, bary ws ps p /\ Forall (Rle (- h)) ws.

(** The segment s and the triangle f are exactly parallel or at least 1e-6 away from it
    (six times the volume they span). *)
Definition decided (s f : vecs) : Prop := forall a b c d e, s = [a; b] -> f = [c; d; e] ->
  let k := triple3 (sub3 (pp b) (pp a)) (sub3 (pp d) (pp c)) (sub3 (pp e) (pp c)) in k = 0 \/ 1/1000000 <= Rabs k.
(** Every edge of one and every face of the other tetrahedron, both ways. *)
Definition decided_pair (t1 t2 : vecs) : Prop :=
  (forall s f, edge_of s t1 -> face_of f t2 -> decided s f) /\ (forall s f, edge_of s t2 -> face_of f t1 -> decided s f).

(** No vertex and no point where an edge crosses a face lies just outside (within the tolerance 1e-6). *)
Definition clear_pair (t1 t2 : vecs) : Prop :=
  (forall v, In v t1 -> near (1/1000000) (map pp t2) (pp v) -> hull (map pp t2) (pp v)) /\
  (forall a b c d e p, edge_of [a; b] t1 -> face_of [c; d; e] t2 ->
     triple3 (sub3 (pp b) (pp a)) (sub3 (pp d) (pp c)) (sub3 (pp e) (pp c)) <> 0 ->
     near (1/1000000) (map pp [a; b]) p -> near (1/1000000) (map pp [c; d; e]) p ->
     hull (map pp [a; b]) p /\ hull (map pp [c; d; e]) p).

(** A triangulation covers the convex hull of its points with non-flat tetrahedra. *)
Definition pt3 (l : list R) : R3 := match l with [x; y; z] => (x, y, z) | _ => o3 end.
Definition covers (q : list (list R)) (l : list (nat * nat * nat * nat)) : Prop :=
  forall p, hull (map pt3 q) p -> exists i j k m a b c d, In (i, j, k, m) l /\
    nth_error q i = Some a /\ nth_error q j = Some b /\ nth_error q k = Some c /\ nth_error q m = Some d /\
    ~ flat4 (pt3 a) (pt3 b) (pt3 c) (pt3 d) /\ hull (map pt3 [a; b; c; d]) p.

(** The common part of two tetrahedra lies within 1e-4 of one plane. *)
Definition thin (t1 t2 : vecs) : Prop :=
  exists n d, norm3 n = 1 /\ forall q, hull (map pp t1) q -> hull (map pp t2) q -> Rabs (dot3 n q - d) < 1/10000.

(** For the Examples: a tetrahedron strictly smaller than tetA and contained in it. *)
From Verif Require Import Spec.Samples.
Definition tetS : vecs := [o6; x1; x2; [T 0 0 1; T 0 0 1; T 0 0 1; T 1 0 2; T 0 0 1; T 0 0 1]].
