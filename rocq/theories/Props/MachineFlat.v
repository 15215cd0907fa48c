(** The coplanarity test of dode2 and outline() in int64 and binary64, for objects whose
    vertices have the same sixth coordinate: C118. *)
From Coq Require Import Reals List ZArith.
From Verif Require Import Base.Res Model.Tau Model.Arr Model.Num Model.DodeDedup Model.DodeIntersect Model.Numeric2 Model.IcoSurface Model.DodeSurface Model.MachineDodeInter Model.MachineDedup Model.MachineBorder Model.MachineOutline
  Spec.LinAlg Spec.Value Spec.RVec Spec.Shape Spec.Mean Spec.DodeSpec Spec.Sets Spec.Space Spec.Tetra Spec.Plane Spec.Surface Spec.Outline Spec.Grid Spec.SolidFloat Spec.Samples Spec.DodeSamples.
Import ListNotations.
Local Open Scope R_scope.
From Verif Require Import Proofs.P_MachineFlat.
Import ListNotations.
Local Open Scope R_scope.

(** C118: the coplanarity test of two triangles whose vertices have the same sixth coordinate.
    [vs]: the different vertices.  The answer is True if there are at most three of them or
    a sample spans a triangle of area at least 1e-6, and False if there are more and every
    sample spans a triangle of area at most 2.5e-7 (numbers below are twice the area). *)
Theorem C118_coplanar : forall (la : linalg), linalg_ok la -> forall (q B : Z) (c : tau) (t u : vecs),
  (0 <= B)%Z -> (0 < q <= 20000000)%Z -> (B * q <= 10^14)%Z -> (3 * B <= 100 * q)%Z ->
  grids 6 q B (t ++ u) -> (forall v, In v (t ++ u) -> nth_error v 5 = Some c) ->
  exists vs, incl vs (t ++ u) /\ NoDup (map dppoint vs) /\ same_set (map dppoint vs) (map dppoint (t ++ u)) /\
    forall draws, Forall (valid_draw (length vs)) draws -> exists b, md_coplanar_check_two_triangles (@Bmath la) draws t u = Ok b /\
      ((length vs <= 3)%nat -> b = true) /\
      (forall i j k v0 v1 v2, In (i, j, k) draws -> nth_error vs i = Some v0 -> nth_error vs j = Some v1 -> nth_error vs k = Some v2 ->
         2/1000000 <= Rabs (det2 (sub3 (dp v1) (dp v0)) (sub3 (dp v2) (dp v0))) -> b = true) /\
      ((3 < length vs)%nat -> (forall i j k v0 v1 v2, In (i, j, k) draws -> nth_error vs i = Some v0 -> nth_error vs j = Some v1 -> nth_error vs k = Some v2 ->
         Rabs (det2 (sub3 (dp v1) (dp v0)) (sub3 (dp v2) (dp v0))) <= 5/10000000) -> b = false).
Proof. exact L_C118_coplanar. Qed.
Print Assumptions C118_coplanar.

(** outline() draws the boundary if, for every triangle and the first one, some sample of
    three of their different vertices [vs] spans a triangle of area at least 1e-6. *)
Theorem C118_outline : forall (la : linalg), linalg_ok la -> forall (q B : Z) (h : R) (c : tau) draws (o : obj4),
  (0 <= B)%Z -> (0 < q <= 20000000)%Z -> (B * q <= 10^14)%Z -> (3 * B <= 100 * q)%Z ->
  patch h o -> Forall (grids 6 q B) o -> done_name (concat o) -> (forall v, In v (concat o) -> nth_error v 5 = Some c) ->
  (forall e g, In e (edges_of 3 o) -> In g (edges_of 3 o) -> dpcentre e = dpcentre g \/ told_apart (dpcentre e) (dpcentre g)) ->
  (forall n t t0 vs, nth_error o (S n) = Some t -> nth_error o 0 = Some t0 -> md_remove_doubling_in_perp_space (A3 (t ++ t0)) = Ok vs ->
     Forall (valid_draw (length vs)) (draws (S n) 0%nat) /\
     exists i j k v0 v1 v2, In (i, j, k) (draws (S n) 0%nat) /\ nth_error vs i = Some v0 /\ nth_error vs j = Some v1 /\ nth_error vs k = Some v2 /\
       2/1000000 <= Rabs (det2 (sub3 (dp v1) (dp v0)) (sub3 (dp v2) (dp v0)))) ->
  exists r, md_outline (@Bmath la) draws o = Ok r /\ forall x, drawn r x <-> boundary h (dregion o) x.
Proof. exact L_C118_outline. Qed.
Print Assumptions C118_outline.

(** The triangle cut into two, with a sample of three vertices of one of the halves. *)
Example C118_ex : patch 0 halves /\ Forall (grids 6 1 2) halves /\ done_name (concat halves) /\ (forall v, In v (concat halves) -> nth_error v 5 = Some (T 0 0 1)) /\
  (forall e g, In e (edges_of 3 halves) -> In g (edges_of 3 halves) -> dpcentre e = dpcentre g \/ told_apart (dpcentre e) (dpcentre g)) /\
  (forall n t t0 vs, nth_error halves (S n) = Some t -> nth_error halves 0 = Some t0 -> md_remove_doubling_in_perp_space (A3 (t ++ t0)) = Ok vs ->
     Forall (valid_draw (length vs)) [(0, 1, 2)%nat] /\
     exists i j k v0 v1 v2, In (i, j, k) [(0, 1, 2)%nat] /\ nth_error vs i = Some v0 /\ nth_error vs j = Some v1 /\ nth_error vs k = Some v2 /\
       2/1000000 <= Rabs (det2 (sub3 (dp v1) (dp v0)) (sub3 (dp v2) (dp v0)))).
Proof. exact E_C118_ex. Qed.
