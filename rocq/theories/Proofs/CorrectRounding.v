(** Correctly rounded logarithms and exponentials meet what is asked of the C library. *)
From Coq Require Import Reals List ZArith Bool Lia Lra Psatz Arith.
From Flocq Require Import Core IEEE754.BinarySingleNaN IEEE754.Binary IEEE754.Bits.
From Verif Require Import Base.Res Model.Num Model.LinAlg Model.Lapack Spec.LinAlg Spec.Lapack Spec.Space Proofs.MachineLemmas Proofs.RoundLemmas Proofs.FloatCalc Proofs.LinAlgLemmas Proofs.LapackLemmas Proofs.LogLemmas Proofs.DetLemmas.
Import ListNotations.
Local Open Scope R_scope.

Notation fx := (SpecFloat.fexp 53 1024).
Definition of_R (r : R) : binary64 :=
  binary_normalize 53 1024 eq_refl eq_refl mode_NE (round_mode mode_NE (scaled_mantissa radix2 fx r)) (cexp radix2 fx r) false.
Lemma of_R_ok r : Rabs r <= bpow radix2 500 -> fin (of_R r) /\ v64 (of_R r) = round radix2 fx (round_mode mode_NE) r.
Proof.
  intros H. unfold of_R.
  match goal with |- context [binary_normalize 53 1024 ?a ?b ?m ?n ?e ?s] => pose proof (binary_normalize_correct 53 1024 a b m n e s) as C; cbv zeta in C end.
  match type of C with context [F2R ?f] => change (F2R f) with (round radix2 fx (round_mode mode_NE) r) in C end.
  assert (G : round radix2 fx (round_mode mode_NE) (round radix2 fx (round_mode mode_NE) r) = round radix2 fx (round_mode mode_NE) r).
  { apply round_generic; [apply valid_rnd_N|]. apply generic_format_round; [apply fexp_correct; reflexivity|apply valid_rnd_N]. }
  rewrite G in C. rewrite Rlt_bool_true in C by (apply big_ok; exact H). destruct C as (C1 & C2 & _). split; [exact C2|exact C1].
Qed.
Lemma ulp_half : ulp radix2 fx (1/2) = bpow radix2 (-53).
Proof.
  rewrite ulp_neq_0 by lra. unfold cexp. replace (1/2) with (bpow radix2 (-1)) by (cbn; lra). rewrite mag_bpow. reflexivity.
Qed.
Lemma not_one x : fin x -> 0 < v64 x -> v64 x <> 1 -> bpow radix2 (-53) / 2 <= Rabs (ln (v64 x)).
Proof.
  intros Fx P N. unfold v64 in *. set (r := Bv x) in *. assert (V : Valid_exp fx) by (apply fexp_correct; reflexivity).
  assert (Gr : generic_format radix2 fx r) by apply generic_format_B2R.
  assert (G1 : generic_format radix2 fx 1) by (change 1 with (bpow radix2 0); apply generic_format_bpow; cbn; lia).
  assert (u : 0 < bpow radix2 (-53) <= 1/1000) by (split; [apply bpow_gt_0|cbn; lra]). set (d := bpow radix2 (-53)) in *.
  assert (UM : forall y, 1/2 <= y -> d <= ulp radix2 fx y). { intros y Hy. unfold d. rewrite <- ulp_half. apply ulp_le; [exact V|apply fexp_monotone|]. rewrite !Rabs_right by lra. exact Hy. }
  destruct (Rlt_dec r 1) as [L|L].
  - assert (B : r <= 1 - d).
    { destruct (Rle_dec (1/2) r) as [H|H]; [|lra]. pose proof (succ_le_lt radix2 fx r 1 Gr G1 L) as K. rewrite succ_eq_pos in K by lra. pose proof (UM r H). lra. }
    assert (A : ln r <= r - 1). { rewrite <- (ln_exp (r - 1)). apply ln_le'; [exact P|]. pose proof (exp_ge (r - 1)). lra. }
    rewrite Rabs_left by lra. lra.
  - assert (L' : 1 < r) by lra. pose proof (succ_le_lt radix2 fx 1 r G1 Gr L') as K. rewrite succ_eq_pos in K by lra. pose proof (UM 1 ltac:(lra)) as K1.
    assert (A : d / 2 <= ln r).
    { apply Rle_trans with (ln (1 + d)); [|apply ln_le'; lra]. 
      assert (Q : ln (/ (1 + d)) <= / (1 + d) - 1). { rewrite <- (ln_exp (/ (1 + d) - 1)). apply ln_le'; [apply Rinv_0_lt_compat; lra|]. pose proof (exp_ge (/ (1 + d) - 1)). lra. }
      rewrite ln_Rinv in Q by lra. assert (I : / (1 + d) <= 1 - d / 2). { apply Rmult_le_reg_l with (1 + d); [lra|]. rewrite Rinv_r by lra. nra. } lra. }
    pose proof (Rle_abs (ln r)). lra.
Qed.
Lemma log_cr : log_ok (fun x => of_R (ln (v64 x))).
Proof.
  intros x Fx P. assert (B : Rabs (ln (v64 x)) <= 2000).
  { pose proof (fin_ge x Fx P) as L. assert (U : v64 x <= 2 ^ 1024).
    { pose proof (abs_B2R_lt_emax 53 1024 x) as K. unfold v64. pose proof (Rle_abs (Bv x)). replace (2 ^ 1024) with (bpow radix2 1024); [lra|]. change (bpow radix2 1024) with (IZR (Z.pow_pos 2 1024)). rewrite pow_IZR. reflexivity. }
    assert (E : 2 ^ 1074 <= exp 2000). { replace 2000 with (INR 1074 + 926) by (rewrite INR_IZR_INZ; change (Z.of_nat 1074) with 1074%Z; lra). rewrite exp_plus, exp_nat. pose proof exp1_ge. pose proof (exp_ge 926).
      assert (2 ^ 1074 <= exp 1 ^ 1074) by (apply pow_incr; lra). assert (0 <= exp 1 ^ 1074) by (apply pow_le; lra). apply Rle_trans with (exp 1 ^ 1074 * 1); [lra|]. apply Rmult_le_compat_l; lra. }
    apply (ln_abs_le _ 2000 (2 ^ 1074)); [lra|apply pow_R1_Rle; lra|exact E|]. split; [|apply Rle_trans with (1 := U); apply Rle_pow; [lra|lia]].
    apply Rle_trans with (2 := L). right. change (bpow radix2 (-1074)) with (/ IZR (Z.pow_pos 2 1074)). f_equal. rewrite pow_IZR. reflexivity. }
  assert (B5 : 2000 <= bpow radix2 500) by (apply Rle_trans with (bpow radix2 11); [cbn; lra|apply bpow_le; lia]).
  destruct (of_R_ok (ln (v64 x)) ltac:(lra)) as [Fr Vr]. split; [exact Fr|]. rewrite Vr. destruct (Req_dec (v64 x) 1) as [E|N].
  - rewrite E, ln_1, round_0, Rminus_0_r, Rabs_R0 by apply valid_rnd_N. lra.
  - pose proof (not_one x Fx P N) as K. eapply Rle_trans; [apply rnd_err|]. fold u53 in K. rewrite u53_ulp in *.
    assert (eta <= ulp1 * Rabs (ln (v64 x))). { pose proof eta_tiny. pose proof eta_pos. apply Rle_trans with (ulp1 * (ulp1 / 2)); [unfold ulp1; lra|]. apply Rmult_le_compat_l; [unfold ulp1; lra|exact K]. } lra.
Qed.
Lemma exp_cr : exp_ok (fun x => of_R (exp (v64 x))).
Proof.
  intros x Fx H. pose proof (exp_pos (v64 x)) as P. assert (B : exp (v64 x) <= bpow radix2 500).
  { apply Rle_trans with (exp 100); [destruct H as [H|H]; [left; apply exp_increasing; exact H|rewrite H; lra]|]. replace 100 with (INR 100) by (rewrite INR_IZR_INZ; reflexivity). rewrite exp_nat.
    apply Rle_trans with (3 ^ 100); [apply pow_incr; pose proof exp_le_3; pose proof (exp_pos 1); lra|]. apply Rle_trans with (bpow radix2 160); [cbn; lra|apply bpow_le; lia]. }
  destruct (of_R_ok (exp (v64 x))) as [Fr Vr]; [rewrite Rabs_right by lra; exact B|]. split; [exact Fr|]. rewrite Vr. eapply Rle_trans; [apply rnd_err|]. rewrite Rabs_right by lra. rewrite u53_ulp.
  assert (0 <= ulp1 * exp (v64 x)) by (apply Rmult_le_pos; [unfold ulp1; lra|lra]). unfold eta. pose proof (bpow_gt_0 radix2 (-1074)). lra.
Qed.
