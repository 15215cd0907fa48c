(** Faces, edges and their centres in perpendicular space. *)
From Coq Require Import Reals List.
From Verif Require Import Base.Res Model.Tau Model.Arr Model.Num Spec.Value Spec.RVec Spec.Mean Spec.Sets.
Import ListNotations.
Local Open Scope R_scope.

(** Centre of a set of vertices in perpendicular space. *)
Definition pcentre (t : vecs) : list R := mean 3 (map ppoint t).

(** The four faces of a tetrahedron; the faces of all tetrahedra of an object. *)
Definition tet_faces (t : vecs) : obj4 :=
  match t with [a; b; c; d] => [[a;b;c]; [a;b;d]; [a;c;d]; [b;c;d]] | _ => [] end.
Definition all_faces (o : obj4) : obj4 := concat (map tet_faces o).
Definition tri_edges (t : vecs) : obj4 :=
  match t with [a; b; c] => [[a;b]; [a;c]; [b;c]] | _ => [] end.
Definition tet_edges (t : vecs) : obj4 :=
  match t with [a; b; c; d] => [[a;b]; [a;c]; [a;d]; [b;c]; [b;d]; [c;d]] | _ => [] end.

(** The edges of an object given as edges, triangles or tetrahedra (n2 vertices each). *)
Definition edges_of (n2 : nat) (o : obj4) : obj4 :=
  if Nat.eqb n2 2 then o else if Nat.eqb n2 3 then concat (map tri_edges o) else concat (map tet_edges o).
(** u and v are the end points of the segment s. *)
Definition ends (s : vecs) (u v : vec) : Prop := s = [u; v] \/ s = [v; u].
(** Exactly one element of the list has the same corners (in perpendicular space) as e. *)
Definition once (e : vecs) (l : obj4) : Prop :=
  exists! j, exists g, nth_error l j = Some g /\ same_set (map ppoint e) (map ppoint g).
(** Position i carries a face whose centre is the centre of no other face in the list. *)
Definition alone (l : obj4) (i : nat) : Prop :=
  exists f, nth_error l i = Some f /\ forall j g, nth_error l j = Some g -> pcentre g = pcentre f -> j = i.

(** Two points are told apart by np.allclose: some coordinate differs by more than
    1e-8 + 1e-5 times the size of either. *)
Definition apart (p q : list R) : Prop :=
  exists i x y, nth_error p i = Some x /\ nth_error q i = Some y /\
    1/100000000 + 1/100000 * Rabs x < Rabs (x - y) /\ 1/100000000 + 1/100000 * Rabs y < Rabs (x - y).

(** On the given points the comparison of the arithmetic N is that of real numbers, and
    points with equal coordinates are close. *)
Definition coords {N : num} (p : pt N) : list (F N) := let '(a, b, c) := p in [a; b; c].
Definition ordered (N : num) (close : pt N -> pt N -> bool) (ps : list (pt N)) : Prop :=
  exists v : F N -> R,
    (forall p q x y, In p ps -> In q ps -> In x (coords p) -> In y (coords q) -> (flt N x y = true <-> v x < v y)) /\
    (forall p q, In p ps -> In q ps -> map v (coords p) = map v (coords q) -> close p q = true).

(** Repeatedly replacing two segments e, f of a list (e before f) by one new segment a,
    put at the end. *)
Inductive merged (merge : vecs -> vecs -> res (option vecs)) : obj4 -> obj4 -> Prop :=
| merged_done l : merged merge l l
| merged_step l1 e l2 f l3 a r : merge e f = Ok (Some a) -> merged merge (l1 ++ l2 ++ l3 ++ [a]) r ->
    merged merge (l1 ++ e :: l2 ++ f :: l3) r.
