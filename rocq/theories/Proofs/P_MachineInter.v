(** The intersection of two objects computed in int64 and binary64. *)
From Coq Require Import Reals List ZArith.
From Verif Require Import Base.Res Model.Tau Model.Arr Model.Num Model.LinAlg Model.IcoMath1 Model.IcoVolume Model.IcoNumeric Model.IcoIntersect Model.MachineVec Model.MachineInter
  Spec.Value Spec.RVec Spec.Shape Spec.IcoSpec Spec.Sets Spec.Space Spec.Tetra Spec.Samples Spec.Region Spec.Overlap Spec.Convex Spec.LinAlg Spec.Float Spec.SpaceFloat Spec.Grid Spec.MachineInter.
Import ListNotations.
Local Open Scope R_scope.

From Coq Require Import Lia Lra.
From Verif Require Import Proofs.ResLemmas Proofs.Irrational Proofs.ScalarLemmas Proofs.IcoVolumeLemmas Proofs.IntersectLemmas Proofs.GridRing Proofs.GridLemmas Proofs.GridInter Proofs.Caratheodory3 Proofs.P_Intersect Proofs.P_MachineCross Proofs.P_Float Proofs.P_FloatComplete Proofs.P_FloatBall.

(** For tetrahedra with small coordinates whose common corners have small coordinates too, the
    machine's intersection is the one of exact arithmetic with the same float64 tests,
    including when it is nothing or an exception. *)
Lemma L_C111_same : forall (N : num) delaunay draws (n q K : Z) (o1 o2 : obj4), at_most n delaunay -> small_objects q K o1 o2 ->
  (forall t1 t2, In t1 o1 -> In t2 o2 -> neat_pair N n t1 t2) ->
  m_intersection N delaunay draws false (A4 o1) (A4 o2) = intersection N delaunay draws false (A4 o1) (A4 o2).
Proof.
  intros N delaunay draws n q K o1 o2 Few (Pq & HK & H1 & H2 & No & Ho & G) Ne. apply Forall_app in G as [G1 G2]. apply (intersection_eq N delaunay draws n q K); try assumption.
Qed.

(** So what it returns lies in both objects, up to 2e-6 in barycentric coordinates. *)
Lemma L_C111_sound : forall la, linalg_ok la ->
  forall delaunay draws (n q K : Z) o1 o2 r p, at_most n delaunay -> small_objects q K o1 o2 ->
  (forall t1 t2, In t1 o1 -> In t2 o2 -> neat_pair (@Bmath la) n t1 t2 /\ exists A D, fit_pair A D t1 t2) ->
  m_intersection (@Bmath la) delaunay draws false (A4 o1) (A4 o2) = Ok (Some r) -> region r p ->
  exists t1 t2, In t1 o1 /\ In t2 o2 /\ near (2/1000000) (map pp t1) p /\ near (2/1000000) (map pp t2) p.
Proof.
  intros la LA delaunay draws n q K o1 o2 r p Few So H E. rewrite (L_C111_same (@Bmath la) delaunay draws n q K o1 o2 Few So) in E by (intros; apply H; assumption).
  destruct (small_tets q K o1 o2 So) as [T1 T2]. apply (L_C95_sound la LA delaunay draws o1 o2 r p T1 T2); [intros; apply H; assumption|exact E].
Qed.

(** And no common point is lost unless the common part is thin. *)
Lemma L_C111_all_kept : forall la, linalg_ok la ->
  forall delaunay draws (n g K : Z) o1 o2 r t1 t2 c1 c2 p q A D A' D' B, at_most n delaunay -> small_objects g K o1 o2 ->
  (forall t1 t2, In t1 o1 -> In t2 o2 -> neat_pair (@Bmath la) n t1 t2) -> In t1 o1 -> In t2 o2 ->
  triangulates3 (@Bmath la) delaunay ->
  m_intersection (@Bmath la) delaunay draws false (A4 o1) (A4 o2) = Ok r ->
  fit_pair A D t1 t2 -> steep t1 t2 -> steep t2 t1 -> tame_points (@Bmath la) A' D' t1 t2 ->
  centroid t1 = Ok c1 -> centroid_obj o2 = Ok c2 -> fit_balls B t1 c1 o2 c2 ->
  hull (map pp t1) q -> hull (map pp t2) q -> deep_by (B / 10 ^ 13) t1 c1 q \/ deep_by (B / 10 ^ 13) (concat o2) c2 q ->
  hull (map pp t1) p -> hull (map pp t2) p ->
  (exists r', r = Some r' /\ region r' p) \/ thin_by (flatness A' D') t1 t2.
Proof.
  intros la LA delaunay draws n g K o1 o2 r t1 t2 c1 c2 p q A D A' D' B Few So Ne I1 I2 Tri E. rewrite (L_C111_same (@Bmath la) delaunay draws n g K o1 o2 Few So Ne) in E.
  destruct (small_tets g K o1 o2 So) as [T1 T2]. exact (L_C95_all_kept la LA delaunay draws o1 o2 r t1 t2 c1 c2 p q A D A' D' B T1 T2 I1 I2 Tri E).
Qed.

Ltac tring4 := first [exists 4%Z; cbn; lia|exists 1%Z; cbn; lia].
(** Two tetrahedra with a cube in common: the hypotheses hold, and the machine computes a result. *)
Example E_C111_ex : exists delaunay draws r, at_most 160000 delaunay /\ triangulates3 Bnum delaunay /\ small_objects 4 4 [tetP] [tetM] /\ neat_pair Bnum 160000 tetP tetM /\
  (exists A D, fit_pair A D tetP tetM) /\ m_intersection Bnum delaunay draws false (A4 [tetP]) (A4 [tetM]) = Ok (Some r).
Proof.
  destruct PM_result as (r & X). exists all_quads, (fun _ _ => [(0, 1, 2); (0, 1, 3); (0, 2, 3); (1, 2, 3)])%nat, r.
  assert (Few : at_most 160000 all_quads).
  { split; [lia|]. intros ps l _ E. unfold all_quads in E. destruct (Nat.leb (length ps) 20) eqn:L; [|discriminate]. apply Nat.leb_le in L. injection E as <-.
    change (Z.of_nat (@length (nat * nat * nat * nat) (quads (length ps))) <= 160000)%Z. unfold quads. rewrite !prod_length, !seq_length. rewrite !Nat2Z.inj_mul. apply Nat2Z.inj_le in L. change (Z.of_nat 20) with 20%Z in L.
    pose proof (Nat2Z.is_nonneg (length ps)) as P0. revert P0 L. generalize (Z.of_nat (length ps)). intros z P0 Hz.
    assert (Z2 : (z * z <= 20 * 20)%Z) by (apply Z.mul_le_mono_nonneg; lia). assert (Z3 : (z * z * z <= 20 * 20 * 20)%Z) by (apply Z.mul_le_mono_nonneg; lia).
    change 160000%Z with (20 * 20 * 20 * 20)%Z. apply Z.mul_le_mono_nonneg; lia. }
  assert (So : small_objects 4 4 [tetP] [tetM]).
  { unfold small_objects. split; [lia|]. split; [lia|]. split; [lia|]. split; [lia|]. split; [discriminate|]. split; [cbn; lia|].
    apply Forall_cons; [split; [reflexivity|]; unfold tetP, at3; rngs; tring4|]. apply Forall_cons; [split; [reflexivity|]; unfold tetM, at3; rngs; tring4|]. apply Forall_nil. }
  assert (Ne : neat_pair Bnum 160000 tetP tetM).
  { intros pts Ep. exists 4%Z, 4%Z. split; [lia|]. split; [lia|]. split; [lia|]. split; [vm_compute; discriminate|]. split; [|intros t _ _; left; lia].
    assert (G : grids 6 4 4 PM_all) by (unfold PM_all, tetP, tetM, at3, at3q; cbn [app Z.eqb]; rngs; tring4).
    eapply grids_incl; [exact G|]. intros v Iv. apply PM_in. assert (GP : goods 6 tetP) by gd. assert (GM : goods 6 tetM) by gd.
    exact (proj1 (collect_In Bnum tetP tetM pts (conj eq_refl GP) (conj eq_refl GM) Ep v) Iv). }
  split; [exact Few|]. split; [exact all_quads_ok|]. split; [exact So|]. split; [exact Ne|].
  destruct E_C95_ex as (_ & _ & Fp & _). split; [exists 1, 5; exact Fp|].
  assert (Ne' : forall t1 t2, In t1 [tetP] -> In t2 [tetM] -> neat_pair Bnum 160000 t1 t2) by (clear - Ne; intros t1 t2 [<-|[]] [<-|[]]; exact Ne).
  exact (eq_trans (L_C111_same Bnum all_quads _ 160000 4 4 [tetP] [tetM] Few So Ne') X).
Qed.

(** Coordinates 0, +-1, +-2 and +-tau are enough for the corners to be too fine for what follows:
    the common part of these two tetrahedra is a tetrahedron, found exactly, whose volume then
    comes out almost twice too large. *)
Lemma L_C111_volume_refuted : exists t1 t2 draws r v v', (forall delaunay, m_intersection Bnum delaunay draws false (A4 [t1]) (A4 [t2]) = Ok (Some r)) /\
  small_objects 1 2 [t1] [t2] /\ obj_volume_6d (A4 r) = Ok (Some v) /\ val TAU v = Rsum (map pvol r) /\ m_obj_volume_6d (A4 r) = Ok (Some v') /\ 1.8 * val TAU v < val TAU v'.
Proof.
  set (t1 := [[T 2 0 1;T 0 (-1) 1;T (-1) 0 1;T 0 (-1) 1;T 0 (-1) 1;T 0 (-1) 1];[T 2 0 1;T 0 1 1;T 0 0 1;T 1 0 1;T (-2) 0 1;T 0 (-1) 1];[T (-1) 0 1;T 0 0 1;T 0 1 1;T 0 0 1;T 1 0 1;T 2 0 1];[T 2 0 1;T 0 0 1;T 1 0 1;T 2 0 1;T 0 0 1;T 2 0 1]]).
  set (t2 := [[T 0 0 1;T 0 0 1;T 2 0 1;T 0 0 1;T (-1) 0 1;T 0 0 1];[T 0 0 1;T 0 1 1;T 0 0 1;T 1 0 1;T (-1) 0 1;T 0 (-1) 1];[T 2 0 1;T (-1) 0 1;T 0 0 1;T 0 (-1) 1;T 0 0 1;T (-1) 0 1];[T 0 0 1;T 2 0 1;T 0 0 1;T 2 0 1;T 2 0 1;T 0 1 1]]).
  set (r := [[[T 0 0 1;T 786 (-22) 1579;T 2372 22 1579;T 786 (-22) 1579;T (-400) (-33) 1579;T (-11) 382 1579];[T 0 0 1;T (-83) 326 1331;T 1844 166 1331;T 409 (-83) 1331;T (-1) 0 1;T 83 (-326) 1331];
    [T 1108 (-46) 3091;T (-554) 23 3091;T 5074 46 3091;T 23 (-531) 3091;T (-2537) (-23) 3091;T (-554) 23 3091];[T 0 0 1;T 0 0 1;T 2 0 1;T 0 0 1;T (-1) 0 1;T 0 0 1]]]).
  exists t1, t2, (fun _ _ => [(0, 1, 2); (0, 1, 3); (0, 2, 3); (1, 2, 3)])%nat, r, (T 890024100 2238904300 19488591177), (T 4170535534079679 4098687467401679 25386971476468664).
  split; [intros delaunay; bnum|]. split.
  { unfold small_objects. split; [lia|]. split; [lia|]. split; [lia|]. split; [lia|]. split; [discriminate|]. split; [cbn; lia|].
    apply Forall_cons; [split; [reflexivity|]; unfold t1; rngs; exists 1%Z; cbn; lia|]. apply Forall_cons; [split; [reflexivity|]; unfold t2; rngs; exists 1%Z; cbn; lia|]. apply Forall_nil. }
  assert (Ev : obj_volume_6d (A4 r) = Ok (Some (T 890024100 2238904300 19488591177))) by bnum.
  split; [exact Ev|]. split.
  { assert (Tr : tets r) by (apply Forall_cons; [split; [reflexivity|]; gd|apply Forall_nil]). pose proof (obj_volume_spec r Tr) as S. rewrite Ev in S. destruct S as (v & E & _ & V). injection E as <-. exact V. }
  split; [bnum|]. unfold val. cbn [ta tb tc]. pose proof TAU_bounds. lra.
Qed.
