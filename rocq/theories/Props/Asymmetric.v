(** The asymmetric part of an occupation domain (ico2/occupation_domain.asymmetric) in
    exact arithmetic: C87. *)
From Coq Require Import Reals List ZArith Lia Lra Bool.
From Verif Require Import Base.Res Model.Tau Model.Arr Model.Num Model.IcoNumeric Model.IcoIntersect Model.Asymmetric
  Spec.Value Spec.RVec Spec.Shape Spec.IcoSpec Spec.Geometry Spec.Sets Spec.Space Spec.Tetra Spec.Samples Spec.Region Spec.Overlap Spec.Corner.
Import ListNotations.
Local Open Scope R_scope.
From Verif Require Import Proofs.P_Asymmetric.
Import ListNotations.
Local Open Scope R_scope.

(** The call is an intersection with one tetrahedron: position and position + 5 v for the
    three vectors v. *)
Theorem C87_reduces : forall pos a b c, good 6 pos -> good 6 a -> good 6 b -> good 6 c ->
  exists t, tets [t] /\
    map pp t = [pp pos; add3 (pp pos) (scale3 5 (pp a)); add3 (pp pos) (scale3 5 (pp b)); add3 (pp pos) (scale3 5 (pp c))] /\
    forall N delaunay draws o, asymmetric N delaunay draws o pos (A3 [a; b; c]) = intersection N delaunay draws false (A4 o) (A4 [t]).
Proof. exact L_C87_reduces. Qed.
Print Assumptions C87_reduces.

(** Nothing spurious: the result lies in the object and in the corner, up to the tolerance
    of intersection(). *)
Theorem C87_sound : forall delaunay draws o pos a b c r p, tets o -> good 6 pos -> good 6 a -> good 6 b -> good 6 c ->
  asymmetric Rnum delaunay draws o pos (A3 [a; b; c]) = Ok (Some r) -> region r p ->
  (exists t, In t o /\ near (1/1000000) (map pp t) p) /\ in_corner (5/1000000) (5 + 5/1000000) (pp pos) (pp a) (pp b) (pp c) p.
Proof. exact L_C87_sound. Qed.
Print Assumptions C87_sound.

(** Nothing is lost: a point of the object in the corner, within five times the given
    vectors, lies in the result. *)
Theorem C87_complete : forall delaunay draws o pos a b c r p, tets o -> good 6 pos -> good 6 a -> good 6 b -> good 6 c ->
  (forall t, In t o -> pvol t <> 0) -> triple3 (pp a) (pp b) (pp c) <> 0 ->
  (forall t0 t, In t0 o -> map pp t = [pp pos; add3 (pp pos) (scale3 5 (pp a)); add3 (pp pos) (scale3 5 (pp b)); add3 (pp pos) (scale3 5 (pp c))] -> decided_pair t0 t) ->
  (forall q l, delaunay q = Some l -> covers q l) ->
  asymmetric Rnum delaunay draws o pos (A3 [a; b; c]) = Ok r ->
  region o p -> in_corner 0 5 (pp pos) (pp a) (pp b) (pp c) p ->
  (exists r', r = Some r' /\ region r' p) \/
  (exists t0 n d, In t0 o /\ hull (map pp t0) p /\ norm3 n = 1 /\
     forall q, hull (map pp t0) q -> in_corner 0 5 (pp pos) (pp a) (pp b) (pp c) q -> Rabs (dot3 n q - d) < 1/10000).
Proof. exact L_C87_complete. Qed.
Print Assumptions C87_complete.

(** The factor 5 is a limit, not a convention: points of the corner beyond it are never in
    the result, however large the object. *)
Theorem C87_cut : forall delaunay draws o pos a b c r x y z, tets o -> good 6 pos -> good 6 a -> good 6 b -> good 6 c ->
  triple3 (pp a) (pp b) (pp c) <> 0 -> 5 + 5/1000000 < x + y + z ->
  asymmetric Rnum delaunay draws o pos (A3 [a; b; c]) = Ok (Some r) -> ~ region r (corner_point (pp pos) (pp a) (pp b) (pp c) x y z).
Proof. exact L_C87_cut. Qed.
Print Assumptions C87_cut.

(** Anything but three 6-d vectors (18 scalars) raises. *)
Theorem C87_shape : forall N delaunay draws o pos vs, Forall wfv vs -> length (concat vs) <> 18%nat ->
  asymmetric N delaunay draws o pos (A3 vs) = Raise ValueError.
Proof. exact L_C87_shape. Qed.
Print Assumptions C87_shape.

(** A tetrahedron at the origin and the corner spanned by its edges: the hypotheses hold,
    and in exact arithmetic the tetrahedron is returned. *)
Example C87_run : tets [tetA] /\ good 6 o6 /\ good 6 x1 /\ good 6 x2 /\ good 6 x4 /\ pvol tetA <> 0 /\ triple3 (pp x1) (pp x2) (pp x4) <> 0 /\
  (forall t, map pp t = [pp o6; add3 (pp o6) (scale3 5 (pp x1)); add3 (pp o6) (scale3 5 (pp x2)); add3 (pp o6) (scale3 5 (pp x4))] -> decided_pair tetA t) /\
  asymmetric Rnum (fun _ => None) (fun _ _ => []) [tetA] o6 (A3 [x1; x2; x4]) = Ok (Some [tetA]).
Proof. exact E_C87_run. Qed.
