(** Edges and faces of tetrahedra and the points that may become vertices of an
    intersection, for any way of testing. *)
From Coq Require Import List ZArith.
From Verif Require Import Base.Res Model.Tau Model.Arr Spec.Sets.
Import ListNotations.

(** s: the two end points of an edge / the three corners of a face of t, in the order of t. *)
Definition edge_of (s t : vecs) : Prop := subseq s t /\ length s = 2.
Definition face_of (s t : vecs) : Prop := subseq s t /\ length s = 3.

(** Some edge of t1 meets some face of t2. *)
Definition crosses (meets : vecs -> vecs -> Prop) (t1 t2 : vecs) : Prop :=
  exists s f, edge_of s t1 /\ face_of f t2 /\ meets s f.

(** v is a vertex of one tetrahedron inside the other, or the point where an edge of
    one meets a face of the other. *)
Definition admissible (inside : vec -> vecs -> Prop) (meet_at : vecs -> vecs -> vec -> Prop) (t1 t2 : vecs) (v : vec) : Prop :=
  (In v t1 /\ inside v t2) \/ (In v t2 /\ inside v t1) \/
  (exists s f, edge_of s t1 /\ face_of f t2 /\ meet_at s f v) \/
  (exists s f, edge_of s t2 /\ face_of f t1 /\ meet_at s f v).

(** The four vertices of p with the given positions. *)
Definition vertices_at (p : vecs) (s : nat * nat * nat * nat) (t : vecs) : Prop :=
  let '(i, j, k, l) := s in exists a b c d,
    nth_error p i = Some a /\ nth_error p j = Some b /\ nth_error p k = Some c /\ nth_error p l = Some d /\ t = [a; b; c; d].

(** The pair (t1,t2), at positions i and j, contributes the tetrahedra q: t2 lies in t1
    (class 2), or they overlap (class 3) and q is their intersection. *)
Definition yields (classify : vecs -> vecs -> res Z) (inter : nat -> nat -> vecs -> vecs -> res (option obj4))
  (i j : nat) (t1 t2 : vecs) (q : obj4) : Prop :=
  (classify t1 t2 = Ok 2%Z /\ q = [t2]) \/ (classify t1 t2 = Ok 3%Z /\ inter i j t1 t2 = Ok (Some q)).
