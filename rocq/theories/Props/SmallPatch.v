(** Flat dodecagonal objects with small coordinates computed in int64 and binary64: C121. *)
From Coq Require Import Reals List ZArith.
From Verif Require Import Base.Res Model.Tau Model.Arr Model.Num Model.DodeDedup Model.DodeIntersect Model.Numeric2 Model.IcoSurface Model.DodeSurface Model.MachineDodeInter Model.MachineDedup Model.MachineBorder Model.MachineOutline
  Spec.LinAlg Spec.Value Spec.RVec Spec.Shape Spec.Mean Spec.DodeSpec Spec.Sets Spec.Space Spec.Tetra Spec.Plane Spec.Surface Spec.Outline Spec.Grid Spec.SolidFloat Spec.Samples Spec.DodeSamples.
Import ListNotations.
Local Open Scope R_scope.
From Verif Require Import Proofs.P_SmallPatch.
Import ListNotations.
Local Open Scope R_scope.

(** C121: when the coordinates, brought to a common denominator of at most 4000, have
    numerators up to 4, the midpoints of two edges are the same point or are told apart by
    the float64 comparison. *)
Theorem C121_midpoints : forall (q : Z) e g, (0 < q <= 4000)%Z -> grids 6 q 4 e -> grids 6 q 4 g -> length e = 2%nat -> length g = 2%nat ->
  dpcentre e = dpcentre g \/ told_apart (dpcentre e) (dpcentre g).
Proof. exact L_C121_midpoints. Qed.
Print Assumptions C121_midpoints.

(** So the border edges found in int64 and float64 draw the boundary of a flat edge-to-edge
    object with such coordinates, with no condition on the midpoints. *)
Theorem C121_boundary : forall (la : linalg) (q : Z) (h : R) (o : obj4),
  (0 < q <= 4000)%Z -> tris o -> Forall (grids 6 q 4) o -> level h (concat o) -> (forall t, In t o -> parea t <> 0) -> edge_to_edge (map (map dp) o) -> done_name (concat o) ->
  exists r, md_gen_border_edges_of_coplanar_triangles (@Bmath la) o = Ok r /\ forall x, drawn r x <-> boundary h (dregion o) x.
Proof. exact L_C121_boundary. Qed.
Print Assumptions C121_boundary.

(** outline() draws the boundary of a flat object with a common denominator q and numerators
    up to B, q B at most 3, if for every triangle and the first one some sample of three of
    their different vertices [vs] is not on one line. *)
Theorem C121_outline : forall (la : linalg), linalg_ok la -> forall (q B : Z) (h : R) (c : tau) draws (o : obj4),
  (0 <= B)%Z -> (0 < q <= 4000)%Z -> (q * B <= 3)%Z ->
  patch h o -> Forall (grids 6 q B) o -> done_name (concat o) -> (forall v, In v (concat o) -> nth_error v 5 = Some c) ->
  (forall n t t0 vs, nth_error o (S n) = Some t -> nth_error o 0 = Some t0 -> md_remove_doubling_in_perp_space (A3 (t ++ t0)) = Ok vs ->
     Forall (valid_draw (length vs)) (draws (S n) 0%nat) /\
     exists i j k v0 v1 v2, In (i, j, k) (draws (S n) 0%nat) /\ nth_error vs i = Some v0 /\ nth_error vs j = Some v1 /\ nth_error vs k = Some v2 /\
       det2 (sub3 (dp v1) (dp v0)) (sub3 (dp v2) (dp v0)) <> 0) ->
  exists r, md_outline (@Bmath la) draws o = Ok r /\ forall x, drawn r x <-> boundary h (dregion o) x.
Proof. exact L_C121_outline. Qed.
Print Assumptions C121_outline.

(** The triangle cut into two, with a sample of three vertices of one of the halves. *)
Example C121_ex : tris halves /\ Forall (grids 6 1 4) halves /\ patch 0 halves /\ Forall (grids 6 1 2) halves /\ done_name (concat halves) /\ (forall v, In v (concat halves) -> nth_error v 5 = Some (T 0 0 1)) /\
  (forall n t t0 vs, nth_error halves (S n) = Some t -> nth_error halves 0 = Some t0 -> md_remove_doubling_in_perp_space (A3 (t ++ t0)) = Ok vs ->
     Forall (valid_draw (length vs)) [(0, 1, 2)%nat] /\
     exists i j k v0 v1 v2, In (i, j, k) [(0, 1, 2)%nat] /\ nth_error vs i = Some v0 /\ nth_error vs j = Some v1 /\ nth_error vs k = Some v2 /\
       det2 (sub3 (dp v1) (dp v0)) (sub3 (dp v2) (dp v0)) <> 0) /\
  exists r, md_outline Bnum (fun _ _ => [(0, 1, 2)%nat]) halves = Ok r /\ forall x, drawn r x <-> boundary 0 (dregion halves) x.
Proof. exact E_C121_ex. Qed.
