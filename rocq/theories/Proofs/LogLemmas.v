(** A product computed through logarithms. *)
From Coq Require Import Reals List ZArith Bool Lia Lra Psatz Arith.
From Flocq Require Import Core IEEE754.BinarySingleNaN IEEE754.Binary IEEE754.Bits.
From Verif Require Import Base.Res Model.Num Model.LinAlg Model.Lapack Spec.LinAlg Spec.Lapack Spec.Space Proofs.MachineLemmas Proofs.RoundLemmas Proofs.FloatCalc Proofs.LinAlgLemmas Proofs.LapackLemmas.
Import ListNotations.
Local Open Scope R_scope.
Local Existing Instance textbook.

Lemma exp_ge x : 1 + x <= exp x.
Proof. apply exp_ineq1_le. Qed.
Lemma exp_near d : Rabs d <= / 1000 -> Rabs (exp d - 1) <= 1002/1000 * Rabs d.
Proof.
  intros H. pose proof (exp_ge d) as A. pose proof (exp_ge (- d)) as B. rewrite exp_Ropp in B. pose proof (exp_pos d) as P.
  assert (C : exp d * (1 - d) <= 1). { apply Rle_trans with (exp d * / exp d); [apply Rmult_le_compat_l; lra|]. right. apply Rinv_r. lra. }
  unfold Rabs in *. destruct (Rcase_abs d), (Rcase_abs (exp d - 1)); nra.
Qed.
Lemma exp_nat n : exp (INR n) = exp 1 ^ n.
Proof. induction n as [|n IH]; [cbn; apply exp_0|]. rewrite S_INR, exp_plus, IH. cbn [pow]. ring. Qed.
Lemma pow64 a b c : 0 <= a -> a <= exp (b / 64) -> c <= a ^ 64 -> c <= exp b.
Proof.
  intros Ha H Hc. apply Rle_trans with (1 := Hc). apply Rle_trans with (exp (b/64) ^ 64); [apply pow_incr; lra|].
  right. assert (E : forall n, exp (b/64) ^ n = exp (INR n * (b/64))). { induction n as [|n IH]; [cbn; rewrite Rmult_0_l, exp_0; reflexivity|]. rewrite S_INR. cbn [pow]. rewrite IH, <- exp_plus. f_equal. ring. }
  rewrite E. f_equal. replace (INR 64) with 64 by (cbn; ring). field.
Qed.
Lemma exp1_ge : 2697/1000 <= exp 1.
Proof. apply (pow64 (65/64) 1); [lra| |lra]. eapply Rle_trans; [|apply exp_ge]. lra. Qed.
Lemma exp7_ge : 1037 <= exp 7.
Proof.
  replace 7 with (INR 7) by (cbn; ring). rewrite exp_nat. apply Rle_trans with ((2697/1000) ^ 7); [lra|]. apply pow_incr. pose proof exp1_ge. lra.
Qed.
Lemma exp07_ge : 2 <= exp (7/10).
Proof. apply (pow64 (647/640) (7/10)); [lra| |lra]. eapply Rle_trans; [|apply exp_ge]. lra. Qed.
Lemma exp77_ge : 2074 <= exp (77/10).
Proof. replace (77/10) with (7 + 7/10) by lra. rewrite exp_plus. pose proof exp7_ge. pose proof exp07_ge. nra. Qed.
Lemma exp84_ge : 4148 <= exp (84/10).
Proof. replace (84/10) with (77/10 + 7/10) by lra. rewrite exp_plus. pose proof exp77_ge. pose proof exp07_ge. nra. Qed.
Lemma ln_le' x y : 0 < x -> x <= y -> ln x <= ln y.
Proof. intros H [K|K]; [left; apply ln_increasing; assumption|right; congruence]. Qed.
Lemma ln_abs_le x b c : 0 < b -> 1 <= c -> c <= exp b -> / c <= x <= c -> Rabs (ln x) <= b.
Proof.
  intros Hb Hc He Hx. assert (I : 0 < / c) by (apply Rinv_0_lt_compat; lra). assert (L : ln c <= b) by (rewrite <- (ln_exp b); apply ln_le'; lra).
  apply Rabs_le. split; [|apply Rle_trans with (ln c); [apply ln_le'; lra|exact L]].
  apply Rle_trans with (ln (/ c)); [rewrite ln_Rinv by lra; lra|apply ln_le'; lra].
Qed.
(** x |ln x| below a bound. *)
Lemma xlnx x X b : 0 < x <= X -> Rabs (ln X) <= b -> x * Rabs (ln x) <= X * (b + 1).
Proof.
  intros Hx Hb. assert (XP : 0 < X / x) by (apply Rdiv_lt_0_compat; lra).
  assert (A : ln (X / x) <= X / x - 1). { rewrite <- (ln_exp (X / x - 1)). apply ln_le'; [exact XP|]. pose proof (exp_ge (X / x - 1)). lra. }
  assert (B : ln X - ln x = ln (X / x)) by (unfold Rdiv; rewrite ln_mult, ln_Rinv; try lra; apply Rinv_0_lt_compat; lra).
  assert (C : 0 <= ln X - ln x) by (pose proof (ln_le' x X ltac:(lra) ltac:(lra)); lra).
  assert (D : Rabs (ln x) <= b + (X / x - 1)). { replace (ln x) with (ln X + - (ln X - ln x)) by ring. eapply Rle_trans; [apply Rabs_triang|]. rewrite Rabs_Ropp, (Rabs_right (ln X - ln x)) by lra. lra. }
  apply Rle_trans with (x * (b + (X / x - 1))); [apply Rmult_le_compat_l; lra|]. replace (x * (b + (X / x - 1))) with (x * b + X - x) by (field; lra).
  assert (0 <= b) by (eapply Rle_trans; [apply Rabs_pos|exact Hb]). assert (x * b <= X * b) by (apply Rmult_le_compat_r; lra). lra.
Qed.
Lemma fin_ge x : fin x -> 0 < v64 x -> bpow radix2 (-1074) <= v64 x.
Proof.
  intros Fx P. unfold v64 in *. assert (S : is_finite_strict 53 1024 x = true) by (destruct x; cbn in *; try discriminate; try lra; reflexivity).
  pose proof (abs_B2R_ge_emin 53 1024 x S) as A. rewrite Rabs_right in A by lra. exact A.
Qed.
Lemma ln_fin x : fin x -> 0 < v64 x <= 5000 -> Rabs (ln (v64 x)) <= 1074.
Proof.
  intros Fx [P U]. pose proof (fin_ge x Fx P) as L.
  assert (E : 2 ^ 1074 <= exp 1074). { replace 1074 with (INR 1074) by (rewrite INR_IZR_INZ; reflexivity). rewrite exp_nat. apply pow_incr. pose proof exp1_ge. lra. }
  apply (ln_abs_le _ 1074 (2 ^ 1074)); [lra|apply pow_R1_Rle; lra|exact E|].
  split; [|apply Rle_trans with (1 := U); apply Rle_trans with (2 ^ 13); [lra|apply Rle_pow; [lra|lia]]].
  apply Rle_trans with (2 := L). right. change (bpow radix2 (-1074)) with (/ IZR (Z.pow_pos 2 1074)). f_equal. rewrite pow_IZR. reflexivity.
Qed.
Lemma log_sum lg x y z : log_ok lg -> fin x -> fin y -> fin z -> 0 < v64 x <= 5000 -> 0 < v64 y <= 5000 -> 0 < v64 z <= 5000 ->
  let s := b64_plus mode_NE (b64_plus mode_NE (lg x) (lg y)) (lg z) in
  fin s /\ Rabs (v64 s - (ln (v64 x) + ln (v64 y) + ln (v64 z))) <= 4001/1000 * (ulp1 * (Rabs (ln (v64 x)) + Rabs (ln (v64 y)) + Rabs (ln (v64 z)))) + 3 * eta.
Proof.
  intros HL Fx Fy Fz Px Py Pz s. pose proof (ln_fin x Fx Px) as Bx. pose proof (ln_fin y Fy Py) as By. pose proof (ln_fin z Fz Pz) as Bz.
  destruct (HL x Fx ltac:(lra)) as [Fa Ea]. destruct (HL y Fy ltac:(lra)) as [Fb Eb]. destruct (HL z Fz ltac:(lra)) as [Fc Ec]. rewrite u53_ulp in *.
  set (p := ln (v64 x)) in *. set (q := ln (v64 y)) in *. set (r := ln (v64 z)) in *. clearbody p q r.
  pose proof (Rabs_pos p). pose proof (Rabs_pos q). pose proof (Rabs_pos r). pose proof (e_small (Rabs p) ltac:(lra)) as e1. pose proof (e_small (Rabs q) ltac:(lra)) as e2. pose proof (e_small (Rabs r) ltac:(lra)) as e3.
  set (a := lg x) in *. set (b := lg y) in *. set (c := lg z) in *. clearbody a b c. unfold v64 in *. unfold fin in *.
  assert (T : forall u v w, Rabs u <= Rabs v + Rabs w + Rabs (u - (v + w))).
  { intros u v w. replace u with (v + w + (u - (v + w))) at 1 by ring. eapply Rle_trans; [apply Rabs_triang|]. apply Rplus_le_compat_r. apply Rabs_triang. }
  assert (T1 : forall u v, Rabs u <= Rabs v + Rabs (u - v)) by (intros u v; replace u with (v + (u - v)) at 1 by ring; apply Rabs_triang).
  pose proof (T1 (Bv a) p) as Ta. pose proof (T1 (Bv b) q) as Tb. pose proof (T1 (Bv c) r) as Tc.
  assert (B5 : 100000 <= bpow radix2 500) by (apply Rle_trans with (bpow radix2 17); [cbn; lra|apply bpow_le; lia]).
  pose proof eta_pos as Ep. pose proof eta_lt as El.
  assert (Sab : Rabs (Bv a + Bv b) <= (1 + / 100000) * (Rabs p + Rabs q)) by (eapply Rle_trans; [apply Rabs_triang|]; lra).
  destruct (bplus_err a b Fa Fb ltac:(lra)) as [[F1 E1] _]. fold s in E1 || idtac.
  assert (X1 : ulp1 * Rabs (Bv a + Bv b) <= ulp1 * ((1 + / 100000) * (Rabs p + Rabs q))) by (apply Rmult_le_compat_l; [unfold ulp1; lra|exact Sab]).
  set (d := fadd Bnum a b) in *. pose proof (T (Bv d) (Bv a) (Bv b)) as Td.
  assert (Sdc : Rabs (Bv d + Bv c) <= (1 + / 10000) * (Rabs p + Rabs q + Rabs r) + 1/10).
  { eapply Rle_trans; [apply Rabs_triang|]. pose proof (T1 (Bv d) (Bv a + Bv b)). lra. }
  assert (Sdc' : Rabs (Bv d + Bv c) <= (1 + / 10000) * (Rabs p + Rabs q + Rabs r) + eta).
  { eapply Rle_trans; [apply Rabs_triang|]. pose proof (T1 (Bv d) (Bv a + Bv b)). lra. }
  destruct (bplus_err d c F1 Fc ltac:(lra)) as [[F2 E2] _].
  assert (X2 : ulp1 * Rabs (Bv d + Bv c) <= ulp1 * ((1 + / 10000) * (Rabs p + Rabs q + Rabs r) + eta)) by (apply Rmult_le_compat_l; [unfold ulp1; lra|exact Sdc']).
  pose proof (e_small eta ltac:(lra)) as e4.
  split; [exact F2|]. change (fadd Bnum d c) with s in E2.
  replace (Bv s - (p + q + r)) with ((Bv s - (Bv d + Bv c)) + (Bv d - (Bv a + Bv b)) + (Bv a - p) + (Bv b - q) + (Bv c - r)) by ring.
  do 4 (eapply Rle_trans; [apply Rabs_triang|]; match goal with |- _ + ?x <= ?y => apply Rle_trans with (y - x + x); [apply Rplus_le_compat_r|right; ring] end).
  lra.
Qed.
Lemma prod_le a b c A B C : 0 <= a <= A -> 0 <= b <= B -> 0 <= c <= C -> 0 <= a * b * c <= A * B * C.
Proof. intros Ha Hb Hc. assert (0 <= a * b <= A * B) by (split; [apply Rmult_le_pos; lra|apply Rmult_le_compat; lra]). split; [apply Rmult_le_pos; lra|apply Rmult_le_compat; lra]. Qed.
Lemma exp_prod lg ex M x y z : log_ok lg -> exp_ok ex -> 1/1000 <= M <= 1001 -> fin x -> fin y -> fin z ->
  0 < v64 x <= 1001/1000 * M -> 0 < v64 y <= 2002/1000 * M -> 0 < v64 z <= 4004/1000 * M ->
  let r := ex (b64_plus mode_NE (b64_plus mode_NE (lg x) (lg y)) (lg z)) in
  fin r /\ Rabs (v64 r - v64 x * v64 y * v64 z) <= 870 * (ulp1 * M ^ 3).
Proof.
  intros HL HE HM Fx Fy Fz Px Py Pz r. destruct (log_sum lg x y z HL Fx Fy Fz ltac:(lra) ltac:(lra) ltac:(lra)) as [Fs Es].
  pose proof (ln_fin x Fx ltac:(lra)) as Bx. pose proof (ln_fin y Fy ltac:(lra)) as By. pose proof (ln_fin z Fz ltac:(lra)) as Bz.
  set (s := b64_plus mode_NE (b64_plus mode_NE (lg x) (lg y)) (lg z)) in *.
  set (X := 1001/1000 * M) in *. set (Y := 2002/1000 * M) in *. set (Z := 4004/1000 * M) in *.
  assert (LX : Rabs (ln X) <= 7) by (apply (ln_abs_le _ 7 1037); [lra|lra|exact exp7_ge|unfold X; lra]).
  assert (LY : Rabs (ln Y) <= 77/10) by (apply (ln_abs_le _ (77/10) 2074); [lra|lra|exact exp77_ge|unfold Y; lra]).
  assert (LZ : Rabs (ln Z) <= 84/10) by (apply (ln_abs_le _ (84/10) 4148); [lra|lra|exact exp84_ge|unfold Z; lra]).
  pose proof (xlnx _ _ _ Px LX) as Kx. pose proof (xlnx _ _ _ Py LY) as Ky. pose proof (xlnx _ _ _ Pz LZ) as Kz.
  set (a := v64 x) in *. set (b := v64 y) in *. set (c := v64 z) in *.
  set (p := Rabs (ln a)) in *. set (q := Rabs (ln b)) in *. set (t := Rabs (ln c)) in *.
  assert (p0 : 0 <= p) by apply Rabs_pos. assert (q0 : 0 <= q) by apply Rabs_pos. assert (t0 : 0 <= t) by apply Rabs_pos.
  pose proof eta_pos as Ep. pose proof eta_lt as El.
  set (d := v64 s - (ln a + ln b + ln c)) in *.
  assert (U : 0 < ulp1 <= / 1000000000000000) by (unfold ulp1; lra).
  assert (Ed : Rabs d <= / 1000). { eapply Rle_trans; [exact Es|]. assert (ulp1 * (p + q + t) <= / 1000000000000000 * (p + q + t)) by (apply Rmult_le_compat_r; lra). lra. }
  assert (Ex : exp (v64 s) = a * b * c * exp d).
  { replace (v64 s) with (ln a + ln b + ln c + d) by (unfold d; ring). rewrite !exp_plus, !exp_ln by lra. reflexivity. }
  assert (S100 : v64 s <= 100).
  { assert (ln a <= 7) by (apply Rle_trans with (ln X); [apply ln_le'; lra|pose proof (Rle_abs (ln X)); lra]).
    assert (ln b <= 77/10) by (apply Rle_trans with (ln Y); [apply ln_le'; lra|pose proof (Rle_abs (ln Y)); lra]).
    assert (ln c <= 84/10) by (apply Rle_trans with (ln Z); [apply ln_le'; lra|pose proof (Rle_abs (ln Z)); lra]).
    replace (v64 s) with (ln a + ln b + ln c + d) by (unfold d; ring). pose proof (Rle_abs d). lra. }
  destruct (HE s Fs S100) as [Fr Er]. fold r in Fr, Er. split; [exact Fr|]. rewrite u53_ulp in Er.
  pose proof (exp_near d Ed) as Nd.
  assert (P : 0 <= a * b * c <= X * Y * Z) by (apply prod_le; lra).
  assert (Qx : 0 <= (a * p) * b * c <= (X * (7 + 1)) * Y * Z) by (apply prod_le; try lra; split; [apply Rmult_le_pos; lra|exact Kx]).
  assert (Qy : 0 <= a * (b * q) * c <= X * (Y * (77/10 + 1)) * Z) by (apply prod_le; try lra; split; [apply Rmult_le_pos; lra|exact Ky]).
  assert (Qz : 0 <= a * b * (c * t) <= X * Y * (Z * (84/10 + 1))) by (apply prod_le; try lra; split; [apply Rmult_le_pos; lra|exact Kz]).
  assert (V : X * Y * Z <= 8025/1000 * M ^ 3) by (unfold X, Y, Z; assert (0 <= M ^ 3) by (apply pow_le; lra); lra).
  assert (M3 : 1/1000000000 <= M ^ 3). { apply Rle_trans with ((1/1000) ^ 3); [lra|apply pow_incr; lra]. }
  set (m := M ^ 3) in *. set (W := a * b * c) in *.
  assert (D : W * Rabs (exp d - 1) <= 1002/1000 * (4001/1000 * (ulp1 * (210 * m)) + 3 * (eta * (9 * m)))).
  { apply Rle_trans with (W * (1002/1000 * (4001/1000 * (ulp1 * (p + q + t)) + 3 * eta))); [apply Rmult_le_compat_l; lra|].
    replace (W * (1002/1000 * (4001/1000 * (ulp1 * (p + q + t)) + 3 * eta))) with (1002/1000 * (4001/1000 * (ulp1 * ((a * p) * b * c + a * (b * q) * c + a * b * (c * t))) + 3 * (eta * W))) by (unfold W; ring).
    apply Rmult_le_compat_l; [lra|]. apply Rplus_le_compat; (apply Rmult_le_compat_l; [lra|]); (apply Rmult_le_compat_l; [lra|]); lra. }
  assert (Sx : exp (v64 s) <= 9 * m).
  { rewrite Ex. replace (W * exp d) with (W + W * (exp d - 1)) by ring. pose proof (Rle_abs (exp d - 1)) as A. assert (W * (exp d - 1) <= W * (1/100)) by (apply Rmult_le_compat_l; lra). lra. }
  assert (R1 : ulp1 * exp (v64 s) <= ulp1 * (9 * m)) by (apply Rmult_le_compat_l; lra).
  replace (v64 r - W) with ((v64 r - exp (v64 s)) + W * (exp d - 1)) by (rewrite Ex; ring).
  eapply Rle_trans; [apply Rabs_triang|]. rewrite (Rabs_mult W), (Rabs_right W) by lra.
  assert (Et : bpow radix2 (-1074) = 2 * eta) by (unfold eta; field). rewrite Et in Er.
  assert (Em : eta * m <= / 1000 * (ulp1 * m)) by (rewrite <- Rmult_assoc; apply Rmult_le_compat_r; [lra|unfold ulp1; lra]).
  assert (Et2 : eta <= / 1000 * (ulp1 * m)).
  { apply Rle_trans with (/ 1000 * (ulp1 * (1/1000000000))); [unfold ulp1; lra|]. apply Rmult_le_compat_l; [lra|]. apply Rmult_le_compat_l; lra. }
  assert (0 <= ulp1 * m) by (apply Rmult_le_pos; lra). lra.
Qed.
