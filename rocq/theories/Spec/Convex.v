(** Convex solids built from tetrahedra, and when the tolerances do not matter for them. *)
From Coq Require Import Reals List.
From Verif Require Import Model.Tau Model.Arr Spec.RVec Spec.Sets Spec.Space Spec.Tetra Spec.Region Spec.Surface Spec.Solid Spec.Overlap.
Import ListNotations.
Local Open Scope R_scope.

Definition convex3 (S : R3 -> Prop) : Prop := forall a b k, S a -> S b -> 0 <= k <= 1 -> S (add3 (scale3 k a) (scale3 (1 - k) b)).
Definition convex_solid (o : obj4) : Prop := solid o /\ convex3 (region o).

(** A face of exactly one tetrahedron; a corner of such a face. *)
Definition outer_face (o : obj4) (f : vecs) : Prop := In f (all_faces o) /\ once f (all_faces o).
Definition outer_corner (o : obj4) (p : R3) : Prop := exists f, outer_face o f /\ In p (map pp f).

(** Every edge of an outer face of o1 and every outer face of o2 are exactly parallel or clearly not. *)
Definition decided_solids (o1 o2 : obj4) : Prop :=
  forall f g s, outer_face o1 f -> outer_face o2 g -> edge_of s f -> decided s g.
(** No outer corner of o1 lies just outside o2 and no point where an edge of an outer face
    of o1 crosses an outer face of o2 lies just outside either. *)
Definition clear_solids (o1 o2 : obj4) : Prop :=
  (forall f v t, outer_face o1 f -> In v f -> In t o2 -> near (1/1000000) (map pp t) (pp v) -> region o2 (pp v)) /\
  (forall f g a b c d e p, outer_face o1 f -> outer_face o2 g -> edge_of [a; b] f -> g = [c; d; e] ->
     triple3 (sub3 (pp b) (pp a)) (sub3 (pp d) (pp c)) (sub3 (pp e) (pp c)) <> 0 ->
     near (1/1000000) (map pp [a; b]) p -> near (1/1000000) (map pp g) p -> region o1 p /\ region o2 p).

(** Two convex solids for which no tolerance matters. *)
Definition well_placed (o1 o2 : obj4) : Prop :=
  convex_solid o1 /\ convex_solid o2 /\ decided_solids o1 o2 /\ decided_solids o2 o1 /\ clear_solids o1 o2 /\ clear_solids o2 o1.
Definition within (o1 o2 : obj4) : Prop := forall x, region o1 x -> region o2 x.

(** For the Examples: the point c1 a1 + c2 a2 + c4 a4, the tetrahedron 0 a1 a2 a4, its
    mirror image moved by (1/4, 1/4, 1/4), and a spike with its tip
    inside the first; the first moved far away.  at3q is at3 4 in lowest terms. *)
From Coq Require Import ZArith.
Definition at3 (n : Z) (a b c : Z) : vec := [T a 0 n; T b 0 n; T 0 0 1; T c 0 n; T 0 0 1; T 0 0 1].
Definition tetP : vecs := [at3 1 0 0 0; at3 1 1 0 0; at3 1 0 1 0; at3 1 0 0 1].
Definition tetM : vecs := [at3 4 1 1 1; at3 4 (-3) 1 1; at3 4 1 (-3) 1; at3 4 1 1 (-3)].
Definition tetN : vecs := [at3 8 2 2 2; at3 8 1 1 (-8); at3 8 2 1 (-8); at3 8 1 2 (-8)].
Definition tetF : vecs := [at3 2 9 0 0; at3 2 11 0 0; at3 2 9 2 0; at3 2 9 0 2].
Definition at3q (a b c : Z) : vec := let q x := if Z.eqb x 0 then T 0 0 1 else T x 0 4 in [q a; q b; T 0 0 1; q c; T 0 0 1; T 0 0 1].
