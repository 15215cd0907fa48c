(** Simplification by the convex hull: C43. *)
From Coq Require Import Reals List ZArith Bool Lia Lra.
From Verif Require Import Base.Res Model.Tau Model.Arr Model.Num Model.IcoVolume Model.IcoIntersect Model.DodeArea Model.Simplify
  Spec.Value Spec.RVec Spec.Shape Spec.Geometry Spec.IcoSpec Spec.DodeSpec Spec.Sets Spec.Space Spec.Samples Spec.Region.
Import ListNotations.
Local Open Scope R_scope.
From Verif Require Import Proofs.P_Simplify.
Import ListNotations.
Local Open Scope R_scope.

(** C43: whatever the hull h and the intersection t are, the decision depends on their
    volumes only: h if the total volume of t is that of the object, else the object. *)
Theorem C43_decision : forall hull inter o h t, o <> [] -> tets o -> hull o = Ok (Some h) -> inter h o = Ok (Some t) -> tets t ->
  (Rsum (map pvol t) = Rsum (map pvol o) -> simplification_ volume hull inter (Some o) = Ok (Some h)) /\
  (Rsum (map pvol t) <> Rsum (map pvol o) -> simplification_ volume hull inter (Some o) = Ok (Some o)).
Proof. exact L_C43_decision. Qed.
Print Assumptions C43_decision.

(** The object lies inside its hull, and a correct intersection with a larger object
    keeps the volume.  Hence, with a correct hull and intersection, the hull is returned
    for every object, convex or not. *)
Theorem C43_always_hull : forall hull inter o h, o <> [] -> tets o -> hull o = Ok (Some h) ->
  (forall p, region o p -> region h p) ->
  (forall a b, tets b -> (forall p, region b p -> region a p) -> exists t, inter a b = Ok (Some t) /\ tets t /\ Rsum (map pvol t) = Rsum (map pvol b)) ->
  simplification_ volume hull inter (Some o) = Ok (Some h).
Proof. exact L_C43_always_hull. Qed.
Print Assumptions C43_always_hull.

(** No object, no volume. *)
Theorem C43_empty : forall vol hull inter, simplification_ vol hull inter None = Ok None /\ simplification_ vol hull inter (Some []) = Ok None.
Proof. exact L_C43_empty. Qed.
Print Assumptions C43_empty.

Theorem C43_volume_refuted : exists o delaunay draws h v w, tets o /\
  simplification Bnum delaunay draws draws (Some o) = Ok (Some h) /\
  volume (A4 o) = Ok (Some v) /\ volume (A4 h) = Ok (Some w) /\ val TAU w = 3 / 2 * val TAU v /\ 0 < val TAU v.
Proof. exact L_C43_volume_refuted. Qed.
Print Assumptions C43_volume_refuted.

(** dode2: the same with areas. *)
Theorem C43_dode_decision : forall hull inter o h t, o <> [] -> tris o -> hull o = Ok (Some h) -> inter h o = Ok (Some t) -> tris t ->
  (Rsum (map parea t) = Rsum (map parea o) -> simplification_ dvolume hull inter (Some o) = Ok (Some h)) /\
  (Rsum (map parea t) <> Rsum (map parea o) -> simplification_ dvolume hull inter (Some o) = Ok (Some o)).
Proof. exact L_C43_dode_decision. Qed.
Print Assumptions C43_dode_decision.

Example C43_ex : tets dented /\ (forall p, region dented p -> region dented_hull p) /\ dented <> [] /\
  simplification_ volume (fun _ => Ok (Some [tetA])) (fun _ o => Ok (Some o)) (Some dented) = Ok (Some [tetA]) /\
  simplification_ volume (fun _ => Ok (Some [tetA])) (fun h _ => Ok (Some h)) (Some dented) = Ok (Some dented).
Proof. exact E_C43_ex. Qed.
