(** Plane geometry in the perpendicular space of dode2.  Points are triples whose third
    coordinate, the "dummy" sixth coordinate of the 6-d vector, is the same for all points
    of one plane. *)
From Coq Require Import Reals List ZArith.
From Verif Require Import Model.Tau Model.Arr Spec.Value Spec.RVec Spec.Sets Spec.DodeSpec Spec.Space Spec.Tetra.
Import ListNotations.
Local Open Scope R_scope.

(** The point of perpendicular space denoted by a 6-d vector, as a triple. *)
Definition dp (v : vec) : R3 := match dppoint v with [x; y; z] => (x, y, z) | _ => o3 end.
Definition height (p : R3) : R := snd p.
(** All vertices lie in the plane z = h. *)
Definition level (h : R) (vs : vecs) : Prop := Forall (fun v => height (dp v) = h) vs.

(** Twice the signed area spanned by two vectors of the plane. *)
Definition det2 (u v : R3) : R := let '(a, b, _) := u in let '(x, y, _) := v in a * y - b * x.
(** The triangle has zero area. *)
Definition flat3 (a b c : R3) : Prop := det2 (sub3 b a) (sub3 c a) = 0.

(** The part of the plane occupied by an object. *)
Definition dregion (o : obj4) (p : R3) : Prop := exists t, In t o /\ hull (map dp t) p.

(** The two segments are exactly parallel, or the square of the area they span is at
    least 1e-6. *)
Definition decided2 (s e : vecs) : Prop := forall a b c d, s = [a; b] -> e = [c; d] ->
  let k := det2 (sub3 (dp b) (dp a)) (sub3 (dp d) (dp c)) in k = 0 \/ 1/1000000 <= k * k.
Definition decided_pair2 (t1 t2 : vecs) : Prop := forall s e, edge_of s t1 -> edge_of e t2 -> decided2 s e.

(** All points of the list lie on one line of the plane. *)
Definition on_line (ps : list R3) : Prop :=
  exists m n d, (m, n) <> (0, 0) /\ Forall (fun p => dot3 (m, n, 0) p = d) ps.
(** The common part of two triangles lies on one line. *)
Definition thin2 (t1 t2 : vecs) : Prop :=
  exists m n d, (m, n) <> (0, 0) /\ forall q, hull (map dp t1) q -> hull (map dp t2) q -> dot3 (m, n, 0) q = d.

(** A triangulation of points of the plane covers their convex hull with triangles of
    non-zero area. *)
Definition pt2 (l : list R) : R3 := match l with [x; y] => (x, y, 0) | _ => o3 end.
Definition covers2 (q : list (list R)) (l : list (nat * nat * nat)) : Prop :=
  forall p, hull (map pt2 q) p -> exists i j k a b c, In (i, j, k) l /\
    nth_error q i = Some a /\ nth_error q j = Some b /\ nth_error q k = Some c /\
    ~ flat3 (pt2 a) (pt2 b) (pt2 c) /\ hull (map pt2 [a; b; c]) p.

(** Some edge of t1 meets some edge of t2. *)
Definition edges_cross (meets : vecs -> vecs -> Prop) (t1 t2 : vecs) : Prop :=
  exists s e, edge_of s t1 /\ edge_of e t2 /\ meets s e.
(** v is a vertex of one triangle inside the other, or the point where an edge of one
    meets an edge of the other. *)
Definition admissible2 (inside : vec -> vecs -> Prop) (meet_at : vecs -> vecs -> vec -> Prop) (t1 t2 : vecs) (v : vec) : Prop :=
  (In v t1 /\ inside v t2) \/ (In v t2 /\ inside v t1) \/
  (exists s e, edge_of s t1 /\ edge_of e t2 /\ meet_at s e v) \/
  (exists s e, edge_of s t2 /\ edge_of e t1 /\ meet_at s e v).

(** The three vertices of p with the given positions. *)
Definition corners_at (p : vecs) (s : nat * nat * nat) (t : vecs) : Prop :=
  let '(i, j, k) := s in exists a b c,
    nth_error p i = Some a /\ nth_error p j = Some b /\ nth_error p k = Some c /\ t = [a; b; c].
