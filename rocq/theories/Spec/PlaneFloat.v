(** When binary64 arithmetic can be trusted in the plane of dode2 objects. *)
From Coq Require Import Reals List ZArith.
From Verif Require Import Base.Res Model.Tau Model.Arr Model.Num Model.DodeMath1 Model.DodeNumeric Spec.Value Spec.RVec Spec.Shape Spec.DodeSpec Spec.Sets Spec.Space Spec.Tetra Spec.Overlap Spec.Plane Spec.Samples Spec.DodeSamples Spec.Float.
Import ListNotations.
Local Open Scope R_scope.

(** Coordinates of moderate size in a plane figure of moderate extent. *)
Definition tame2 (A D h : R) (vs : vecs) : Prop :=
  1 <= A <= 200000 /\ 1/1000 <= D <= 100 /\ (A + D) * D ^ 3 <= 500000 /\ Forall (coefs A) vs /\ spread D (map dp vs) /\ level h vs.
(** A triangle that is not too thin for its size. *)
Definition plump2 (A D : R) (t : vecs) : Prop := (A + D) * D <= 500000 * parea t.
(** The area spanned by two segments a-b and c-d; they are exactly parallel or the
    angle between them is large enough. *)
Definition turn (a b c d : vec) : R := det2 (sub3 (dp b) (dp a)) (sub3 (dp d) (dp c)).
Definition sharp2 (A D : R) (s e : vecs) : Prop := forall a b c d, s = [a; b] -> e = [c; d] ->
  turn a b c d = 0 \/ (A + D) * D ^ 4 <= 50000 * (turn a b c d ^ 2 * dist3 (dp d) (dp c)).
(** Two triangles on which the tests of the package can be evaluated in binary64. *)
Definition fit_pair2 (A D h : R) (t1 t2 : vecs) : Prop :=
  tame2 A D h (t1 ++ t2) /\ plump2 A D t1 /\ plump2 A D t2 /\
  forall s e, edge_of s t1 -> edge_of e t2 -> sharp2 A D s e /\ sharp2 A D e s.
(** No vertex and no crossing point lies just outside, within 1e-6. *)
Definition clear3_pair (t1 t2 : vecs) : Prop :=
  (forall v, In v t1 -> near (1/1000000) (map dp t2) (dp v) -> hull (map dp t2) (dp v)) /\
  (forall a b c d p, edge_of [a; b] t1 -> edge_of [c; d] t2 -> turn a b c d <> 0 ->
     near (1/1000000) (map dp [a; b]) p -> near (1/1000000) (map dp [c; d]) p ->
     hull (map dp [a; b]) p /\ hull (map dp [c; d]) p).
(** The segments cross at p, at least 1e-6 of their length away from their ends. *)
Definition crosses_at (s e : vecs) (p : R3) : Prop := near (- (1/1000000)) (map dp s) p /\ near (- (1/1000000)) (map dp e) p.
(** Any two edges are exactly parallel, or span an area of at least sqrt 1.2e-6 and meet,
    if at all, in such a point or in a vertex. *)
Definition neat_pair (t1 t2 : vecs) : Prop := forall a b c d, edge_of [a; b] t1 -> edge_of [c; d] t2 ->
  turn a b c d = 0 \/ (12/10000000 <= turn a b c d ^ 2 /\
   forall p, hull (map dp [a; b]) p -> hull (map dp [c; d]) p ->
     crosses_at [a; b] [c; d] p \/ exists v, In v [a; b; c; d] /\ p = dp v).
(** One triangle lies in the other, or two edges cross properly. *)
Definition overlaps (t1 t2 : vecs) : Prop :=
  (forall v, In v t1 -> hull (map dp t2) (dp v)) \/ (forall v, In v t2 -> hull (map dp t1) (dp v)) \/
  exists a b c d p, edge_of [a; b] t1 /\ edge_of [c; d] t2 /\ turn a b c d <> 0 /\ crosses_at [a; b] [c; d] p.
(** The points of the plane handed to the triangulation, in the arithmetic N. *)
Definition plane_points (N : num) (ps : vecs) : res (list (list (F N))) :=
  mapM (fun v => bind (dprojection3 v) (fun w => Ok (firstn 2 (dnumerical_vector N w)))) ps.
(** Triangulating rounded points covers the hull of the exact ones, unless the exact points
    lie on a line; only then can it fail. *)
Definition triangulates (N : num) (delaunay : list (list (F N)) -> option (list (nat * nat * nat))) : Prop :=
  forall ps q, goods 6 ps -> plane_points N ps = Ok q ->
    match delaunay q with
    | Some l => covers2 (map (fun v => firstn 2 (dppoint v)) ps) l \/ on_line (map dp ps)
    | None => on_line (map dp ps)
    end.

(** For the Examples: two triangles with the triangle triW in common, two vertices of the
    second lying on edges of the first, and one of the first inside the second. *)
Definition triU : vecs := [o6; pl (T 8 0 3) (T 1 0 3); pl (T 1 0 3) (T 8 0 3)].
Definition triV : vecs := [pl (T 8 0 9) (T 1 0 9); pl (T 1 0 9) (T 8 0 9); pl (T (-2) 0 1) (T (-2) 0 1)].
Definition triW : vecs := [o6; pl (T 8 0 9) (T 1 0 9); pl (T 1 0 9) (T 8 0 9)].

(** The exact components of u - v are of moderate size. *)
Definition dgap_ok (A : R) (u v : vec) : Prop := forall d r, dsub_vectors u v = Ok d -> dprojection3 d = Ok r -> Forall (coef A) r.
(** The differences that enter the circles about c1 and c2 are of moderate size. *)
Definition dfit_balls (A : R) (t : vecs) (c1 : vec) (o : list vecs) (c2 : vec) : Prop :=
  1 <= A <= 1000000 /\ (forall v, In v t -> dgap_ok A v c1) /\ (forall v, In v (concat o) -> dgap_ok A v c2) /\ dgap_ok A c1 c2.
(** p lies deeper than h in the circle about c through some of the points vs. *)
Definition ddeep_by (h : R) (vs : vecs) (c : vec) (p : R3) : Prop := exists v, In v vs /\ dist3 p (dp c) + h <= dist3 (dp v) (dp c).
