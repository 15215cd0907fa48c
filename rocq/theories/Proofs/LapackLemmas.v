(** np.linalg.det is accurate: LU factors with interchanges, pivots multiplied through logarithms. *)
From Coq Require Import Reals List ZArith Bool Lia Lra Psatz Arith.
From Flocq Require Import Core IEEE754.BinarySingleNaN IEEE754.Binary IEEE754.Bits.
From Verif Require Import Base.Res Model.Num Model.LinAlg Model.Lapack Spec.LinAlg Spec.Lapack Spec.Space Proofs.MachineLemmas Proofs.RoundLemmas Proofs.FloatCalc Proofs.LinAlgLemmas.
Import ListNotations.
Local Open Scope R_scope.
Local Existing Instance textbook.

Lemma u53_ulp : u53 = ulp1. Proof. unfold u53, ulp1. cbn. reflexivity. Qed.
Definition tau0 : R := bpow radix2 (-1000).
Lemma tau0_small M : 1/1000 <= M -> 0 < tau0 <= / 1000000 * (ulp1 * M).
Proof.
  intros H. unfold tau0. split; [apply bpow_gt_0|]. apply Rle_trans with (bpow radix2 (-200)); [apply bpow_le; lia|].
  apply Rle_trans with (/ 1000000 * (ulp1 * (1/1000))); [unfold ulp1; cbn; lra|]. apply Rmult_le_compat_l; [lra|]. apply Rmult_le_compat_l; [unfold ulp1; lra|exact H].
Qed.
Lemma e_small t : 0 <= t -> 0 <= ulp1 * t <= / 1000000000 * t.
Proof. intros H. split; [apply Rmult_le_pos; [unfold ulp1; lra|exact H]|]. apply Rmult_le_compat_r; [exact H|unfold ulp1; lra]. Qed.

(** The determinant of an array and the product of its pivots. *)
Definition det9 (a0 a1 a2 b0 b1 b2 c0 c1 c2 : R) : R := a0 * (b1 * c2 - b2 * c1) + a1 * (b2 * c0 - b0 * c2) + a2 * (b0 * c1 - b1 * c0).
Lemma minor_le N p q r s : 0 <= N -> Rabs p <= N -> Rabs q <= N -> Rabs r <= N -> Rabs s <= N -> Rabs (p * q - r * s) <= 2 * (N * N).
Proof.
  intros H Hp Hq Hr Hs. unfold Rminus. eapply Rle_trans; [apply Rabs_triang|]. rewrite Rabs_Ropp, !Rabs_mult.
  assert (Rabs p * Rabs q <= N * N) by (apply Rmult_le_compat; try apply Rabs_pos; assumption). assert (Rabs r * Rabs s <= N * N) by (apply Rmult_le_compat; try apply Rabs_pos; assumption). lra.
Qed.
Lemma det_le N e0 e1 e2 d0 d1 d2 b0 b1 b2 c0 c1 c2 : 0 <= N -> Rabs d0 <= e0 -> Rabs d1 <= e1 -> Rabs d2 <= e2 ->
  Rabs b0 <= N -> Rabs b1 <= N -> Rabs b2 <= N -> Rabs c0 <= N -> Rabs c1 <= N -> Rabs c2 <= N ->
  Rabs (det9 d0 d1 d2 b0 b1 b2 c0 c1 c2) <= (e0 + e1 + e2) * (2 * (N * N)).
Proof.
  intros H D0 D1 D2 B0 B1 B2 C0 C1 C2. unfold det9.
  assert (P : forall d e t, Rabs d <= e -> Rabs t <= 2 * (N * N) -> Rabs (d * t) <= e * (2 * (N * N))) by (intros d e t Hd Ht; rewrite Rabs_mult; apply Rmult_le_compat; try apply Rabs_pos; assumption).
  pose proof (P _ _ _ D0 (minor_le N b1 c2 b2 c1 H B1 C2 B2 C1)). pose proof (P _ _ _ D1 (minor_le N b2 c0 b0 c2 H B2 C0 B0 C2)). pose proof (P _ _ _ D2 (minor_le N b0 c1 b1 c0 H B0 C1 B1 C0)).
  eapply Rle_trans; [apply Rabs_triang|]. eapply Rle_trans; [apply Rplus_le_compat_r; apply Rabs_triang|]. lra.
Qed.
Lemma near1 r t : near r [t] -> Rabs (r - t) <= 5 * (ulp1 * Rabs t) + tau0.
Proof. unfold near. cbn [fold_right map]. rewrite u53_ulp, !Rplus_0_r. fold tau0. lra. Qed.
Lemma near2 r t s : near r [t; s] -> Rabs (r - (t + s)) <= 5 * (ulp1 * (Rabs t + Rabs s)) + tau0.
Proof. unfold near. cbn [fold_right map]. rewrite u53_ulp, !Rplus_0_r. fold tau0. lra. Qed.
Lemma near3 r t s q : near r [t; s; q] -> Rabs (r - (t + s + q)) <= 5 * (ulp1 * (Rabs t + Rabs s + Rabs q)) + tau0.
Proof. unfold near. cbn [fold_right map]. rewrite u53_ulp, !Rplus_0_r. fold tau0. replace (t + (s + q)) with (t + s + q) by ring. lra. Qed.
(** A sum of terms of known size plus a new one: sizes and residual. *)
Lemma grow M c r s t a : 1/1000 <= M -> 0 <= c <= 100 -> Rabs r <= M -> Rabs s <= a -> 0 <= a <= c * M ->
  Rabs (r - (s + t)) <= 5 * (ulp1 * (a + Rabs t)) + tau0 -> Rabs t <= (1 + c + 1/10000) * M /\ Rabs (r - (s + t)) <= (5 * (1 + 2 * c + 1/10000) + 1/1000) * (ulp1 * M).
Proof.
  intros HM Hc Hr Hs Ha H. pose proof (tau0_small M HM) as Ht. pose proof (Rabs_pos t) as Pt. pose proof (e_small (a + Rabs t) ltac:(lra)) as E. pose proof (e_small M ltac:(lra)) as EM.
  assert (cM : 0 <= c * M <= 100 * M) by (split; [apply Rmult_le_pos; lra|apply Rmult_le_compat_r; lra]).
  assert (T : Rabs t <= Rabs r + Rabs s + Rabs (r - (s + t))).
  { replace t with (r + - s + - (r - (s + t))) at 1 by ring. eapply Rle_trans; [apply Rabs_triang|]. rewrite Rabs_Ropp. apply Rplus_le_compat_r. eapply Rle_trans; [apply Rabs_triang|]. rewrite Rabs_Ropp. lra. }
  assert (T2 : Rabs t <= (1 + c + 1/10000) * M) by lra. split; [exact T2|].
  eapply Rle_trans; [exact H|].
  assert (ulp1 * (a + Rabs t) <= ulp1 * ((1 + 2 * c + 1/10000) * M)) by (apply Rmult_le_compat_l; [unfold ulp1; lra|lra]). lra.
Qed.
Lemma lu_det M a0 a1 a2 b0 b1 b2 c0 c1 c2 l m n p q r s t w : 1/1000 <= M <= 1001 ->
  Forall (fun x => Rabs x <= M) [a0; a1; a2; b0; b1; b2; c0; c1; c2] -> Forall (fun x => Rabs x <= 1 + 4 * ulp1) [l; m; n] ->
  near a0 [p] -> near a1 [q] -> near a2 [r] -> near b0 [l * p] -> near b1 [l * q; s] -> near b2 [l * r; t] ->
  near c0 [m * p] -> near c1 [m * q; n * s] -> near c2 [m * r; n * t; w] ->
  Rabs p <= 1001/1000 * M /\ Rabs s <= 2002/1000 * M /\ Rabs w <= 4004/1000 * M /\ Rabs (det9 a0 a1 a2 b0 b1 b2 c0 c1 c2 - p * s * w) <= 235 * (ulp1 * M ^ 3).
Proof.
  intros HM HA HL N1 N2 N3 N4 N5 N6 N7 N8 N9. apply near1 in N1, N2, N3, N4, N7. apply near2 in N5, N6, N8. apply near3 in N9.
  do 9 (apply Forall_cons_iff in HA; let K := fresh "K" in destruct HA as [K HA]). do 3 (apply Forall_cons_iff in HL; let K := fresh "K" in destruct HL as [K HL]).
  assert (U : ulp1 <= / 1000000000) by (unfold ulp1; lra).
  assert (Z : Rabs 0 <= 0) by (rewrite Rabs_R0; lra).
  assert (G1 : forall x y, Rabs x <= M -> Rabs (x - y) <= 5 * (ulp1 * Rabs y) + tau0 -> Rabs y <= 10001/10000 * M /\ Rabs (x - y) <= 51/10 * (ulp1 * M)).
  { intros x y Hx H. destruct (grow M 0 x 0 y 0) as [A B]; try lra. { rewrite !Rplus_0_l. exact H. } rewrite Rplus_0_l in B. pose proof (e_small M ltac:(lra)). split; [lra|]. lra. }
  destruct (G1 _ _ K N1) as [P1 E1]. destruct (G1 _ _ K0 N2) as [P2 E2]. destruct (G1 _ _ K1 N3) as [P3 E3].
  destruct (G1 _ _ K2 N4) as [P4 E4]. destruct (G1 _ _ K5 N7) as [P7 E7].
  assert (Pr : forall x y c, 0 <= c <= 4 -> Rabs x <= 1 + 4 * ulp1 -> Rabs y <= c * M -> Rabs (x * y) <= (c + 1/10000) * M).
  { intros x y c Hc Hx Hy. rewrite Rabs_mult. apply Rle_trans with ((1 + 4 * ulp1) * (c * M)); [apply Rmult_le_compat; try apply Rabs_pos; assumption|].
    assert (0 <= c * M <= 4 * M) by (split; [apply Rmult_le_pos; lra|apply Rmult_le_compat_r; lra]). pose proof (e_small (c * M) ltac:(lra)). lra. }
  pose proof (Pr l q (10001/10000) ltac:(lra) K8 P2) as Q1. pose proof (Pr l r (10001/10000) ltac:(lra) K8 P3) as Q2. pose proof (Pr m q (10001/10000) ltac:(lra) K9 P2) as Q3. pose proof (Pr m r (10001/10000) ltac:(lra) K9 P3) as Q4.
  destruct (grow M (10002/10000) b1 (l * q) s (Rabs (l * q))) as [S1 F1]; try lra; try (split; [apply Rabs_pos|lra]).
  destruct (grow M (10002/10000) b2 (l * r) t (Rabs (l * r))) as [S2 F2]; try lra; try (split; [apply Rabs_pos|lra]).
  assert (S1' : Rabs s <= 20004/10000 * M) by lra. assert (S2' : Rabs t <= 20004/10000 * M) by lra.
  pose proof (Pr n s (20004/10000) ltac:(lra) K10 S1') as Q5. pose proof (Pr n t (20004/10000) ltac:(lra) K10 S2') as Q6.
  destruct (grow M (10002/10000) c1 (m * q) (n * s) (Rabs (m * q))) as [S3 F3]; try lra; try (split; [apply Rabs_pos|lra]).
  destruct (grow M (30008/10000) c2 (m * r + n * t) w (Rabs (m * r) + Rabs (n * t))) as [S4 F4]; try lra; try apply Rabs_triang; try (split; [apply Rplus_le_le_0_compat; apply Rabs_pos|lra]).
  pose proof (e_small M ltac:(lra)) as EM.
  split; [lra|]. split; [lra|]. split; [lra|].
  assert (Sub : forall x y, Rabs x <= M -> Rabs (x - y) <= 100 * (ulp1 * M) -> Rabs y <= 10001/10000 * M).
  { intros x y Hx H. replace y with (x + - (x - y)) by ring. eapply Rle_trans; [apply Rabs_triang|]. rewrite Rabs_Ropp. lra. }
  assert (W : forall x, Rabs x <= M -> Rabs x <= 10001/10000 * M) by (intros; lra).
  replace (det9 a0 a1 a2 b0 b1 b2 c0 c1 c2 - p * s * w) with
    (det9 (a0 - p) (a1 - q) (a2 - r) b0 b1 b2 c0 c1 c2 + det9 (b0 - l * p) (b1 - (l * q + s)) (b2 - (l * r + t)) c0 c1 c2 p q r +
     det9 (c0 - m * p) (c1 - (m * q + n * s)) (c2 - (m * r + n * t + w)) p q r (l * p) (l * q + s) (l * r + t)) by (unfold det9; ring).
  set (N := 10001/10000 * M).
  pose proof (det_le N _ _ _ _ _ _ b0 b1 b2 c0 c1 c2 ltac:(unfold N; lra) E1 E2 E3 (W _ K2) (W _ K3) (W _ K4) (W _ K5) (W _ K6) (W _ K7)) as D1.
  pose proof (det_le N _ _ _ _ _ _ c0 c1 c2 p q r ltac:(unfold N; lra) E4 F1 F2 (W _ K5) (W _ K6) (W _ K7) P1 P2 P3) as D2.
  pose proof (det_le N _ _ _ _ _ _ p q r (l * p) (l * q + s) (l * r + t) ltac:(unfold N; lra) E7 F3 F4 P1 P2 P3 P4 (Sub b1 (l * q + s) K3 ltac:(lra)) (Sub b2 (l * r + t) K4 ltac:(lra))) as D3.
  eapply Rle_trans; [apply Rabs_triang|]. eapply Rle_trans; [apply Rplus_le_compat_r; apply Rabs_triang|].
  unfold N in *. replace (M ^ 3) with (M * (M * M)) by ring.
  assert (C : 0 <= ulp1 * (M * (M * M))) by (apply Rmult_le_pos; [unfold ulp1; lra|apply Rmult_le_pos; [lra|apply Rmult_le_pos; lra]]).
  clear - C D1 D2 D3. lra.
Qed.
