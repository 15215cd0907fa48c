(** The intersection of two dodecagonal objects computed in int64 and binary64. *)
From Coq Require Import Reals List ZArith.
From Verif Require Import Base.Res Model.Tau Model.Arr Model.Num Model.LinAlg Model.DodeMath1 Model.DodeIntersect Model.MachineDodeInter
  Spec.LinAlg Spec.Value Spec.RVec Spec.Shape Spec.DodeSpec Spec.Sets Spec.Space Spec.Tetra Spec.Overlap Spec.Plane Spec.Samples Spec.DodeSamples Spec.Float Spec.PlaneFloat Spec.Grid Spec.MachineDodeInter.
Import ListNotations.
Local Open Scope R_scope.

From Coq Require Import Lia Lra.
From Verif Require Import Proofs.ResLemmas Proofs.Irrational Proofs.NumLemmas Proofs.IntersectLemmas Proofs.DodeProj Proofs.DodeAreaLemmas Proofs.PlaneLemmas Proofs.Polytope Proofs.Polygon Proofs.CoplanarLemmas Proofs.DodeIntersectLemmas Proofs.P_DodeIntersect Proofs.FloatGeom Proofs.DodeFloatGeom Proofs.P_DodeOverlap
  Proofs.P_DodeFloat Proofs.FloatBall Proofs.DodeFloatBall Proofs.P_DodeFloatBall Proofs.GridRing Proofs.GridLemmas Proofs.GridInter Proofs.GridDodeInter Proofs.P_MachineCross.

(** For triangles with small coordinates whose common corners have small coordinates too, the
    machine's intersection is the one of exact arithmetic with the same float64 tests,
    including when it is nothing or an exception. *)
Lemma L_C112_same : forall (N : num) delaunay (q K : Z) (o1 o2 : obj4), small_dobjects q K o1 o2 ->
  (forall t1 t2, In t1 o1 -> In t2 o2 -> dneat_corners N t1 t2) ->
  md_intersection N delaunay false (A4 o1) (A4 o2) = dintersection N delaunay false (A4 o1) (A4 o2).
Proof.
  intros N delaunay q K o1 o2 (Pq & HK & H1 & No & Ho & G) Ne. apply Forall_app in G as [G1 G2]. apply (dintersection_eq N delaunay q K); assumption.
Qed.

(** So what it returns lies in both objects, up to 1e-6 in barycentric coordinates. *)
Lemma L_C112_sound : forall la, linalg_ok la ->
  forall delaunay (q K : Z) o1 o2 r p, small_dobjects q K o1 o2 ->
  (forall t1 t2, In t1 o1 -> In t2 o2 -> dneat_corners (@Bmath la) t1 t2 /\ exists A D h, fit_pair2 A D h t1 t2) ->
  md_intersection (@Bmath la) delaunay false (A4 o1) (A4 o2) = Ok (Some r) -> dregion r p ->
  exists t1 t2, In t1 o1 /\ In t2 o2 /\ near (1/1000000) (map dp t1) p /\ near (1/1000000) (map dp t2) p.
Proof.
  intros la LA delaunay q K o1 o2 r p So H E. rewrite (L_C112_same (@Bmath la) delaunay q K o1 o2 So) in E by (intros; apply H; assumption).
  destruct (small_tris q K o1 o2 So) as [T1 T2]. apply (L_C100_sound la LA delaunay o1 o2 r p T1 T2); [intros; apply H; assumption|exact E].
Qed.

(** Exactly in both, when no vertex and no crossing is too close for the tests. *)
Lemma L_C112_sound_exact : forall la, linalg_ok la ->
  forall delaunay (q K : Z) o1 o2 r p, small_dobjects q K o1 o2 ->
  (forall t1 t2, In t1 o1 -> In t2 o2 -> dneat_corners (@Bmath la) t1 t2 /\ (exists A D h, fit_pair2 A D h t1 t2) /\ clear3_pair t1 t2 /\ clear3_pair t2 t1) ->
  md_intersection (@Bmath la) delaunay false (A4 o1) (A4 o2) = Ok (Some r) -> dregion r p -> dregion o1 p /\ dregion o2 p.
Proof.
  intros la LA delaunay q K o1 o2 r p So H E. rewrite (L_C112_same (@Bmath la) delaunay q K o1 o2 So) in E by (intros; apply H; assumption).
  destruct (small_tris q K o1 o2 So) as [T1 T2]. apply (L_C100_sound_exact la LA delaunay o1 o2 r p T1 T2); [intros; apply H; assumption|exact E].
Qed.

(** And no common point is lost unless the common part is thin. *)
Lemma L_C112_all_kept : forall la, linalg_ok la ->
  forall delaunay (g K : Z) o1 o2 r t1 t2 c1 c2 p q A D h B, small_dobjects g K o1 o2 ->
  (forall t1 t2, In t1 o1 -> In t2 o2 -> dneat_corners (@Bmath la) t1 t2) -> In t1 o1 -> In t2 o2 ->
  triangulates (@Bmath la) delaunay ->
  md_intersection (@Bmath la) delaunay false (A4 o1) (A4 o2) = Ok r ->
  fit_pair2 A D h t1 t2 -> neat_pair t1 t2 -> overlaps t1 t2 ->
  dcentroid t1 = Ok c1 -> dcentroid_obj o2 = Ok c2 -> dfit_balls B t1 c1 o2 c2 ->
  hull (map dp t1) q -> hull (map dp t2) q -> ddeep_by (B / 10 ^ 13) t1 c1 q \/ ddeep_by (B / 10 ^ 13) (concat o2) c2 q ->
  hull (map dp t1) p -> hull (map dp t2) p ->
  (exists r', r = Some r' /\ dregion r' p) \/ thin2 t1 t2.
Proof.
  intros la LA delaunay g K o1 o2 r t1 t2 c1 c2 p q A D h B So Ne I1 I2 Tri E. rewrite (L_C112_same (@Bmath la) delaunay g K o1 o2 So Ne) in E.
  destruct (small_tris g K o1 o2 So) as [T1 T2]. exact (L_C100_all_kept la LA delaunay o1 o2 r t1 t2 c1 c2 p q A D h B T1 T2 I1 I2 Tri E).
Qed.

(** Two triangles that overlap without containing one another meet all hypotheses. *)
Example E_C112_ex : exists t1 t2 c1 c2 q, small_dobjects 2 2 [t1] [t2] /\ dneat_corners Bnum t1 t2 /\ fit_pair2 2 4 0 t1 t2 /\ clear3_pair t1 t2 /\ clear3_pair t2 t1 /\ neat_pair t1 t2 /\ overlaps t1 t2 /\
  dcentroid t1 = Ok c1 /\ dcentroid_obj [t2] = Ok c2 /\ dfit_balls 2 t1 c1 [t2] c2 /\ hull (map dp t1) q /\ hull (map dp t2) q /\ ddeep_by (2 / 10 ^ 13) t1 c1 q /\
  md_intersection Bnum (fun _ => None) false (A4 [t1]) (A4 [t2]) = Ok (Some [[pl (T (-1) 0 2) (T (-1) 0 2); pl (T (-1) 0 2) (T 1 0 2); pl (T 1 0 2) (T (-1) 0 2)]]).
Proof.
  set (t1 := [pl (T (-1) 0 1) (T (-1) 0 1); pl (T 1 0 1) (T (-1) 0 1); pl (T (-1) 0 1) (T 1 0 1)]).
  set (t2 := [pl (T (-1) 0 2) (T (-1) 0 2); pl (T 1 0 1) (T (-1) 0 2); pl (T (-1) 0 2) (T 1 0 1)]).
  exists t1, t2, (pl (T (-1) 0 3) (T (-1) 0 3)), (pl (T 0 0 1) (T 0 0 1)), (dp (pl (T (-1) 0 2) (T (-1) 0 2))).
  assert (So : small_dobjects 2 2 [t1] [t2]).
  { unfold small_dobjects. split; [lia|]. split; [lia|]. split; [lia|]. split; [discriminate|]. split; [cbn; lia|].
    apply Forall_cons; [split; [reflexivity|]; unfold t1, pl; rngs; sring|]. apply Forall_cons; [split; [reflexivity|]; unfold t2, pl; rngs; sring|]. apply Forall_nil. }
  assert (Ne : dneat_corners Bnum t1 t2).
  { set (u := pl (T 1 0 2) (T (-1) 0 2)). set (v := pl (T (-1) 0 2) (T 1 0 2)). set (w := pl (T (-1) 0 2) (T (-1) 0 2)).
    assert (X : dcollect Bnum t1 t2 = Ok (4%nat, [u; v; u; v; w])) by bnum.
    intros n pts E. assert (pts = [u; v; u; v; w]) as -> by (clear - X E; congruence). exists 2%Z, 2%Z. split; [lia|]. split; [lia|]. split; [lia|]. split; [|intros t _ _; left; lia].
    unfold u, v, w, pl. rngs; (first [exists 2%Z; cbn; lia|exists 1%Z; cbn; lia]). }
  split; [exact So|]. split; [exact Ne|]. split.
  { split; [unfold t1, t2; tam|]. split; [unfold t1; plu|]. split; [unfold t2; plu|].
    intros s e Es Ee. unfold t1 in Es. unfold t2 in Ee. apply edge_three in Es, Ee. destruct Es as [-> | [-> | ->]], Ee as [-> | [-> | ->]]; split; shp 1 1. }
  split; [clr t1 t2|]. split; [clr t2 t1|]. split.
  { intros a b c d Es Ee; unfold t1 in Es; unfold t2 in Ee; apply edge_three in Es, Ee.
    destruct Es as [Es | [Es | Es]], Ee as [Ee | [Ee | Ee]]; injection Es as -> ->; injection Ee as -> ->;
    (first [left; unfold turn; dpq; lra|right; split; [unfold turn; dpq; lra|]; intros p H1 H2; left; apply hull_near0 in H1, H2; revert p H1 H2]);
    unfold crosses_at; apply near_of; intros x y Hx Hy E; assert (E' := E); dpq_in E'; injection E'; intros; (apply (fun X Y => cross_of _ _ _ _ _ x y X Y E); lra). }
  split.
  { right. right. exists (pl (T 1 0 1) (T (-1) 0 1)), (pl (T (-1) 0 1) (T 1 0 1)), (pl (T (-1) 0 2) (T (-1) 0 2)), (pl (T 1 0 1) (T (-1) 0 2)), (dp (pl (T 1 0 2) (T (-1) 0 2))). split; [split; [unfold t1; sub3l|reflexivity]|]. split; [split; [unfold t2; sub3l|reflexivity]|].
    split; [unfold turn; dpq; lra|]. split; [exists [3/4; 1/4]|exists [1/3; 2/3]]; (split; [split; [reflexivity|split; [unfold Rsum; cbn; lra|dpq; unfold o3; cbn; apply f_equal2; [apply f_equal2|]; field]]|repeat (apply Forall_cons; [lra|]); constructor]). }
  split; [vm_compute; reflexivity|]. split; [vm_compute; reflexivity|].
  split. { split; [lra|]. unfold t1, t2. split; [dgaps|]. split; [dgaps|dgap1]. }
  split; [unfold t1; bars [1/2; 1/4; 1/4]|]. split; [apply hull_mem; left; reflexivity|]. split.
  { exists (pl (T 1 0 1) (T (-1) 0 1)). split; [cbn; auto|]. unfold dist3. dpq.
    match goal with |- norm3 ?a + _ <= norm3 ?b => assert (Z : norm3 a <= 1/2); [|assert (Z' : 2/3 <= norm3 b); [|lra]] end.
    - eapply Rle_trans; [apply (norm3_bnd (1/6)); [lra|]|lra]. cbn. split; [|split]; apply Rabs_le; lra.
    - eapply Rle_trans; [|exact (proj1 (CoplanarLemmas.norm3_comp _ _ _))]. match goal with |- _ <= Rabs ?x => pose proof (Rle_abs x); pose proof (Rle_abs (- x)); rewrite Rabs_Ropp in *; lra end. }
  match goal with |- _ = ?r => vm_cast_no_check (eq_refl r) end.
Qed.
