(** outline() of dode2 computed in int64 and binary64: C117. *)
From Coq Require Import Reals List ZArith.
From Verif Require Import Base.Res Model.Tau Model.Arr Model.Num Model.DodeDedup Model.DodeIntersect Model.Numeric2 Model.IcoSurface Model.DodeSurface Model.MachineDedup Model.MachineBorder Model.MachineOutline
  Spec.LinAlg Spec.Value Spec.RVec Spec.Shape Spec.Mean Spec.DodeSpec Spec.Sets Spec.Space Spec.Tetra Spec.Plane Spec.Surface Spec.Outline Spec.Grid Spec.SolidFloat Spec.Samples Spec.DodeSamples.
Import ListNotations.
Local Open Scope R_scope.
From Verif Require Import Proofs.P_MachineOutline.
Import ListNotations.
Local Open Scope R_scope.

Theorem C117_outline : forall (la : linalg), linalg_ok la -> forall (q B : Z) (h : R) draws (o : obj4),
  (0 <= B)%Z -> (0 < q <= 20000000)%Z -> (B * q <= 10^14)%Z -> (3 * B <= 100 * q)%Z ->
  patch h o -> Forall (grids 6 q B) o -> done_name (concat o) ->
  (forall e g, In e (edges_of 3 o) -> In g (edges_of 3 o) -> dpcentre e = dpcentre g \/ told_apart (dpcentre e) (dpcentre g)) ->
  (forall i t t0, nth_error o (S i) = Some t -> nth_error o 0 = Some t0 -> md_coplanar_check_two_triangles (@Bmath la) (draws (S i) 0%nat) t t0 = Ok true) ->
  exists r, md_outline (@Bmath la) draws o = Ok r /\ forall x, drawn r x <-> boundary h (dregion o) x.
Proof. exact L_C117_outline. Qed.
Print Assumptions C117_outline.

(** ... with segments between different vertices of the patch, no two of which continue one
    another in a straight line. *)
Theorem C117_segments : forall (la : linalg), linalg_ok la -> forall (q B : Z) (h : R) draws (o r : obj4),
  (0 <= B)%Z -> (0 < q <= 20000000)%Z -> (B * q <= 10^14)%Z -> (3 * B <= 100 * q)%Z ->
  patch h o -> Forall (grids 6 q B) o -> done_name (concat o) ->
  (forall e g, In e (edges_of 3 o) -> In g (edges_of 3 o) -> dpcentre e = dpcentre g \/ told_apart (dpcentre e) (dpcentre g)) ->
  (forall i t t0, nth_error o (S i) = Some t -> nth_error o 0 = Some t0 -> md_coplanar_check_two_triangles (@Bmath la) (draws (S i) 0%nat) t t0 = Ok true) ->
  md_outline (@Bmath la) draws o = Ok r ->
  r <> [] /\ (forall e, In e r -> exists u v, e = [u; v] /\ In u (concat o) /\ In v (concat o) /\ dp u <> dp v) /\
  forall i j e f p a p' s, i <> j -> nth_error r i = Some e -> nth_error r j = Some f -> ends e p a -> ends f p' s -> dp p = dp p' ->
    ~ hull [dp a; dp s] (dp p).
Proof. exact L_C117_segments. Qed.
Print Assumptions C117_segments.

(** The triangle cut into two: all conditions are met if the sample drawn is that of the
    first three vertices. *)
Example C117_ex : exists draws, patch 0 halves /\ Forall (grids 6 1 2) halves /\ done_name (concat halves) /\
  (forall e g, In e (edges_of 3 halves) -> In g (edges_of 3 halves) -> dpcentre e = dpcentre g \/ told_apart (dpcentre e) (dpcentre g)) /\
  (forall i t t0, nth_error halves (S i) = Some t -> nth_error halves 0 = Some t0 -> md_coplanar_check_two_triangles Bnum (draws (S i) 0%nat) t t0 = Ok true) /\
  exists r, md_outline Bnum draws halves = Ok r /\ forall x, drawn r x <-> boundary 0 (dregion halves) x.
Proof. exact E_C117_ex. Qed.
