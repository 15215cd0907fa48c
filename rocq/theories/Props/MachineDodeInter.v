(** The intersection of two dodecagonal objects computed in int64 and binary64. *)
From Coq Require Import Reals List ZArith.
From Verif Require Import Base.Res Model.Tau Model.Arr Model.Num Model.LinAlg Model.DodeMath1 Model.DodeIntersect Model.MachineDodeInter
  Spec.LinAlg Spec.Value Spec.RVec Spec.Shape Spec.DodeSpec Spec.Sets Spec.Space Spec.Tetra Spec.Overlap Spec.Plane Spec.Samples Spec.DodeSamples Spec.Float Spec.PlaneFloat Spec.Grid Spec.MachineDodeInter.
Import ListNotations.
Local Open Scope R_scope.
From Verif Require Import Proofs.P_MachineDodeInter.
Import ListNotations.
Local Open Scope R_scope.

(** For triangles with small coordinates whose common corners have small coordinates too, the
    machine's intersection is the one of exact arithmetic with the same float64 tests,
    including when it is nothing or an exception. *)
Theorem C112_same : forall (N : num) delaunay (q K : Z) (o1 o2 : obj4), small_dobjects q K o1 o2 ->
  (forall t1 t2, In t1 o1 -> In t2 o2 -> dneat_corners N t1 t2) ->
  md_intersection N delaunay false (A4 o1) (A4 o2) = dintersection N delaunay false (A4 o1) (A4 o2).
Proof. exact L_C112_same. Qed.
Print Assumptions C112_same.

(** So what it returns lies in both objects, up to 1e-6 in barycentric coordinates. *)
Theorem C112_sound : forall la, linalg_ok la ->
  forall delaunay (q K : Z) o1 o2 r p, small_dobjects q K o1 o2 ->
  (forall t1 t2, In t1 o1 -> In t2 o2 -> dneat_corners (@Bmath la) t1 t2 /\ exists A D h, fit_pair2 A D h t1 t2) ->
  md_intersection (@Bmath la) delaunay false (A4 o1) (A4 o2) = Ok (Some r) -> dregion r p ->
  exists t1 t2, In t1 o1 /\ In t2 o2 /\ near (1/1000000) (map dp t1) p /\ near (1/1000000) (map dp t2) p.
Proof. exact L_C112_sound. Qed.
Print Assumptions C112_sound.

(** Exactly in both, when no vertex and no crossing is too close for the tests. *)
Theorem C112_sound_exact : forall la, linalg_ok la ->
  forall delaunay (q K : Z) o1 o2 r p, small_dobjects q K o1 o2 ->
  (forall t1 t2, In t1 o1 -> In t2 o2 -> dneat_corners (@Bmath la) t1 t2 /\ (exists A D h, fit_pair2 A D h t1 t2) /\ clear3_pair t1 t2 /\ clear3_pair t2 t1) ->
  md_intersection (@Bmath la) delaunay false (A4 o1) (A4 o2) = Ok (Some r) -> dregion r p -> dregion o1 p /\ dregion o2 p.
Proof. exact L_C112_sound_exact. Qed.
Print Assumptions C112_sound_exact.

(** And no common point is lost unless the common part is thin. *)
Theorem C112_all_kept : forall la, linalg_ok la ->
  forall delaunay (g K : Z) o1 o2 r t1 t2 c1 c2 p q A D h B, small_dobjects g K o1 o2 ->
  (forall t1 t2, In t1 o1 -> In t2 o2 -> dneat_corners (@Bmath la) t1 t2) -> In t1 o1 -> In t2 o2 ->
  triangulates (@Bmath la) delaunay ->
  md_intersection (@Bmath la) delaunay false (A4 o1) (A4 o2) = Ok r ->
  fit_pair2 A D h t1 t2 -> neat_pair t1 t2 -> overlaps t1 t2 ->
  dcentroid t1 = Ok c1 -> dcentroid_obj o2 = Ok c2 -> dfit_balls B t1 c1 o2 c2 ->
  hull (map dp t1) q -> hull (map dp t2) q -> ddeep_by (B / 10 ^ 13) t1 c1 q \/ ddeep_by (B / 10 ^ 13) (concat o2) c2 q ->
  hull (map dp t1) p -> hull (map dp t2) p ->
  (exists r', r = Some r' /\ dregion r' p) \/ thin2 t1 t2.
Proof. exact L_C112_all_kept. Qed.
Print Assumptions C112_all_kept.

(** Two triangles that overlap without containing one another meet all hypotheses. *)
Example C112_ex : exists t1 t2 c1 c2 q, small_dobjects 2 2 [t1] [t2] /\ dneat_corners Bnum t1 t2 /\ fit_pair2 2 4 0 t1 t2 /\ clear3_pair t1 t2 /\ clear3_pair t2 t1 /\ neat_pair t1 t2 /\ overlaps t1 t2 /\
  dcentroid t1 = Ok c1 /\ dcentroid_obj [t2] = Ok c2 /\ dfit_balls 2 t1 c1 [t2] c2 /\ hull (map dp t1) q /\ hull (map dp t2) q /\ ddeep_by (2 / 10 ^ 13) t1 c1 q /\
  md_intersection Bnum (fun _ => None) false (A4 [t1]) (A4 [t2]) = Ok (Some [[pl (T (-1) 0 2) (T (-1) 0 2); pl (T (-1) 0 2) (T 1 0 2); pl (T 1 0 2) (T (-1) 0 2)]]).
Proof. exact E_C112_ex. Qed.
