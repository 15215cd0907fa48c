(** The float64 sign tests of the volumes and areas are right for small numbers, and for
    numbers that are not too close to zero. *)
From Coq Require Import Reals List ZArith Lia Lra Bool Psatz.
From Flocq Require Import Core IEEE754.BinarySingleNaN IEEE754.Binary IEEE754.Bits.
From Verif Require Import Base.Res Model.Tau Model.Sign Model.Num Model.IcoNumeric Model.DodeNumeric Spec.Value Spec.Grid
  Proofs.ValueLemmas Proofs.Irrational Proofs.SignLemmas Proofs.NumLemmas Proofs.RoundLemmas Proofs.FloatCalc Proofs.GridLemmas.
Local Open Scope R_scope.
Local Existing Instance textbook.

Lemma abs_IZR_le z N : (Z.abs z <= N)%Z -> Rabs (IZR z) <= IZR N.
Proof. intros H. rewrite <- abs_IZR. apply IZR_le. exact H. Qed.
Lemma int_ge1 z : IZR z <> 0 -> 1 <= Rabs (IZR z).
Proof. intros H. rewrite <- abs_IZR. apply IZR_le. assert (z <> 0%Z) by (intros ->; apply H; reflexivity). lia. Qed.
(** A number a + b*TAU that is not zero is not close to zero. *)
Lemma tau_gap a b N : (Z.abs a <= N)%Z -> (Z.abs b <= N)%Z -> IZR a + IZR b * TAU <> 0 -> 1 <= Rabs (IZR a + IZR b * TAU) * (17/10 * IZR N).
Proof.
  intros Ha Hb Hz. pose proof TAU_sq as Ts. pose proof TAU_bounds as Tb. apply abs_IZR_le in Ha, Hb.
  assert (E : (IZR a + IZR b * TAU) * (IZR a + IZR b * (1 - TAU)) = IZR (a * a + a * b - b * b)) by (rewrite minus_IZR, plus_IZR, !mult_IZR; ring [Ts]).
  assert (C : IZR a + IZR b * (1 - TAU) <> 0).
  { intros Z0. apply Hz. destruct (TAU_irrational (a + b)%Z (- b)%Z) as [Z1 Z2]; [rewrite plus_IZR, opp_IZR; lra|]. assert (b = 0%Z) by lia. assert (a = 0%Z) by lia. subst. lra. }
  assert (G : 1 <= Rabs (IZR (a * a + a * b - b * b))) by (apply int_ge1; rewrite <- E; apply Rmult_integral_contrapositive; split; assumption).
  rewrite <- E, Rabs_mult in G. eapply Rle_trans; [exact G|]. apply Rmult_le_compat_l; [apply Rabs_pos|].
  eapply Rle_trans; [apply Rabs_triang|]. rewrite Rabs_mult. assert (Rabs (1 - TAU) <= 7/10) by (apply Rabs_le; lra).
  assert (Rabs (IZR b) * Rabs (1 - TAU) <= IZR N * (7/10)) by (apply Rmult_le_compat; auto using Rabs_pos). lra.
Qed.
Lemma sin_gap a b N : (Z.abs a <= N)%Z -> (Z.abs b <= N)%Z -> IZR a + IZR b * SIN <> 0 -> 1 <= Rabs (IZR a + IZR b * SIN) * (76/10 * IZR N).
Proof.
  intros Ha Hb Hz. pose proof SIN_sq as Ts. pose proof SIN_bounds as Tb. apply abs_IZR_le in Ha, Hb.
  assert (E : (IZR a + IZR b * SIN) * (4 * (IZR a - IZR b * SIN)) = IZR (4 * (a * a) - 3 * (b * b))).
  { rewrite minus_IZR, !mult_IZR. transitivity (4 * (IZR a * IZR a) - 4 * (IZR b * IZR b) * (SIN * SIN)); [ring|]. rewrite Ts. field. }
  assert (C : 4 * (IZR a - IZR b * SIN) <> 0).
  { intros Z0. apply Hz. destruct (SIN_irrational a (- b)%Z) as [Z1 Z2]; [rewrite opp_IZR; lra|]. assert (b = 0%Z) by lia. subst. lra. }
  assert (G : 1 <= Rabs (IZR (4 * (a * a) - 3 * (b * b)))) by (apply int_ge1; rewrite <- E; apply Rmult_integral_contrapositive; split; assumption).
  rewrite <- E, Rabs_mult in G. eapply Rle_trans; [exact G|]. apply Rmult_le_compat_l; [apply Rabs_pos|].
  rewrite Rabs_mult, (Rabs_pos_eq 4) by lra. replace (76/10 * IZR N) with (4 * (19/10 * IZR N)) by field. apply Rmult_le_compat_l; [lra|].
  eapply Rle_trans; [apply Rabs_triang|]. rewrite Rabs_Ropp, Rabs_mult. assert (Rabs SIN <= 9/10) by (apply Rabs_le; lra).
  assert (Rabs (IZR b) * Rabs SIN <= IZR N * (9/10)) by (apply Rmult_le_compat; auto using Rabs_pos). lra.
Qed.

(** The float64 sum a + b*k. *)
Lemma sum_apx kf k a b : apx kf k (2 * ulp1) -> Rabs k <= 162/100 -> (Z.abs a <= 2^53)%Z -> (Z.abs b <= 2^53)%Z ->
  apx (fadd Bnum (fZ Bnum a) (fmul Bnum (fZ Bnum b) kf)) (IZR a + IZR b * k) ((Rabs (IZR a) + 2 * Rabs (IZR b)) / 2251799813685248).
Proof.
  intros [Fk Hk] Bk Ha Hb.
  destruct (apx_Z a Ha) as [[Fa _] Va]. destruct (apx_Z b Hb) as [[Fb _] Vb].
  apply p53Z in Ha as Ra. apply p53Z in Hb as Rb.
  set (A := Rabs (IZR a)) in *. set (B := Rabs (IZR b)) in *.
  assert (A0 : 0 <= A) by apply Rabs_pos. assert (B0 : 0 <= B) by apply Rabs_pos.
  pose proof eta_pos as E0. pose proof eta_lt as E1. pose proof eta_tiny as E2. pose proof p500 as P5.
  assert (U0 : 0 < ulp1 <= / 1000000000000000) by (unfold ulp1; lra).
  assert (Kf : Rabs (Bv kf) <= 17/10) by (pose proof (apx_abs kf k _ (conj Fk Hk)); lra).
  set (p := fmul Bnum (fZ Bnum b) kf).
  assert (Pb : Rabs (Bv (fZ Bnum b) * Bv kf) <= 17/10 * B) by (rewrite Rabs_mult, Vb; fold B; pose proof (Rabs_pos (Bv kf)); nra).
  destruct (bmult_err (fZ Bnum b) kf Fb Fk ltac:(lra)) as [[Fp Hp] Zp]. fold p in Fp, Hp, Zp. rewrite Vb in Hp, Zp, Pb.
  assert (Dp : Rabs (Bv p - IZR b * k) <= 37/10 * ulp1 * B + eta).
  { replace (Bv p - IZR b * k) with ((Bv p - IZR b * Bv kf) + IZR b * (Bv kf - k)) by ring. eapply Rle_trans; [apply Rabs_triang|]. rewrite (Rabs_mult (IZR b) (Bv kf - k)). fold B.
    assert (B * Rabs (Bv kf - k) <= B * (2 * ulp1)) by (apply Rmult_le_compat_l; assumption).
    assert (ulp1 * Rabs (IZR b * Bv kf) <= ulp1 * (17/10 * B)) by (apply Rmult_le_compat_l; lra). lra. }
  assert (Kb : Rabs (IZR b * k) <= 162/100 * B) by (rewrite Rabs_mult; fold B; pose proof (Rabs_pos k); nra).
  assert (Ap : Rabs (Bv p) <= 17/10 * B + eta).
  { replace (Bv p) with (IZR b * k + (Bv p - IZR b * k)) by ring. eapply Rle_trans; [apply Rabs_triang|]. assert (37/10 * ulp1 * B <= 8/100 * B) by (apply Rmult_le_compat_r; lra). lra. }
  set (s := fadd Bnum (fZ Bnum a) p).
  assert (Sp : Rabs (Bv (fZ Bnum a) + Bv p) <= A + 17/10 * B + eta) by (rewrite Va; eapply Rle_trans; [apply Rabs_triang|]; fold A; lra).
  destruct (bplus_err (fZ Bnum a) p Fa Fp ltac:(lra)) as [[Fs Hs] Zs]. fold s in Fs, Hs, Zs. rewrite Va in Hs, Zs, Sp.
  split; [exact Fs|].
  destruct (Z.eq_dec (Z.abs a + Z.abs b) 0) as [Zab|Zab].
  - assert (a = 0%Z) by lia. assert (b = 0%Z) by lia. subst a b. assert (Vp : Bv p = 0) by (apply Zp; ring). assert (Vs : Bv s = 0) by (apply Zs; rewrite Vp; ring).
    rewrite Vs. replace (0 - (0 + 0 * k)) with 0 by ring. rewrite Rabs_R0. lra.
  - assert (M1 : 1 <= A + B) by (unfold A, B; rewrite <- !abs_IZR, <- plus_IZR; apply IZR_le; lia).
    assert (Ds : Rabs (Bv s - (IZR a + IZR b * k)) <= ulp1 * A + 54/10 * ulp1 * B + 3 * eta).
    { replace (Bv s - (IZR a + IZR b * k)) with ((Bv s - (IZR a + Bv p)) + (Bv p - IZR b * k)) by ring. eapply Rle_trans; [apply Rabs_triang|].
      assert (ulp1 * Rabs (IZR a + Bv p) <= ulp1 * (A + 17/10 * B + eta)) by (apply Rmult_le_compat_l; lra).
      assert (ulp1 * eta <= 1 * eta) by (apply Rmult_le_compat_r; lra). lra. }
    eapply Rle_trans; [exact Ds|]. replace ((A + 2 * B) / 2251799813685248) with (4 * ulp1 * (A + 2 * B)) by (unfold ulp1; field).
    assert (ulp1 * 1 <= ulp1 * (A + B)) by (apply Rmult_le_compat_l; lra).
    assert (0 <= ulp1 * A) by (apply Rmult_le_pos; lra). assert (0 <= ulp1 * B) by (apply Rmult_le_pos; lra). lra.
Qed.

(** A comparison with zero that survives an error smaller than the number. *)
Lemma sign_apx x r e : apx x r e -> (r = 0 -> e = 0) -> (r <> 0 -> e < Rabs r) -> (flt Bnum x (fZ Bnum 0) = true <-> r < 0).
Proof.
  intros [Fx Hx] H0 H1. destruct (apx_Z 0) as [[F0 _] V0]; [cbn; lia|]. rewrite (blt_spec x _ Fx F0), V0.
  destruct (Req_dec r 0) as [Z|Z].
  - rewrite (H0 Z) in Hx. subst r. rewrite Rminus_0_r in Hx. pose proof (Rle_abs (Bv x)). pose proof (Rle_abs (- Bv x)) as Hn. rewrite Rabs_Ropp in Hn. lra.
  - pose proof (H1 Z) as H. pose proof (Rle_abs (Bv x - r)). pose proof (Rle_abs (- (Bv x - r))) as Hn. rewrite Rabs_Ropp in Hn. unfold Rabs in H at 1. destruct (Rcase_abs r); split; lra.
Qed.

(** The test numeric_value(v) < 0 of ico2. *)
Lemma float_neg_tau q N v : on_grid q N v -> (N <= 2^53)%Z -> (q <= 2^53)%Z ->
  ((N <= 2^24)%Z \/ val TAU v = 0 \/ IZR N / (500000000000000 * IZR q) <= Rabs (val TAU v)) ->
  flt Bnum (numeric_value Bnum v) (fZ Bnum 0) = neg_tau v.
Proof.
  intros G HN Hq H. pose proof (grid_wf _ _ _ G) as W. destruct (grid_small _ _ _ G) as (Sa & Sb & Sc). pose proof (grid_pos _ _ _ G) as PN. destruct G as (Pq & k & Ek & Ka & Kb).
  destruct v as [a b c]. cbn [ta tb tc] in *.
  assert (Pc : c <> 0%Z) by (intros ->; lia). assert (Pk0 : k <> 0%Z) by (intros ->; lia).
  assert (Pk : 1 <= Rabs (IZR k)) by (apply int_ge1, not_0_IZR; exact Pk0). assert (Pc' : 1 <= Rabs (IZR c)) by (apply int_ge1, not_0_IZR; exact Pc). assert (Pc0 : IZR c <> 0) by (apply not_0_IZR; exact Pc).
  assert (A : apx (numeric_value Bnum (T a b c)) (val TAU (T a b c)) ((Rabs (IZR a) + 2 * Rabs (IZR b)) / (2251799813685248 * Rabs (IZR c)))) by (apply numeric_value_apx; lia).
  apply eq_true_iff_eq. rewrite (neg_tau_spec _ W). apply (sign_apx _ _ _ A).
  - intros Z. unfold val in Z. cbn [ta tb tc] in Z. assert (Z1 : IZR a + IZR b * TAU = 0) by (apply (Rmult_eq_reg_r (/ IZR c)); [unfold Rdiv in Z; lra|apply Rinv_neq_0_compat; exact Pc0]).
    apply TAU_irrational in Z1 as [-> ->]. rewrite Rabs_R0. unfold Rdiv. ring.
  - intros NZ. destruct H as [H|[H|H]]; [|contradiction|].
    + unfold val. cbn [ta tb tc]. assert (Z1 : IZR a + IZR b * TAU <> 0) by (intros Z; apply NZ; unfold val; cbn [ta tb tc]; rewrite Z; unfold Rdiv; ring).
      pose proof (tau_gap a b N Sa Sb Z1) as G. apply abs_IZR_le in Sa, Sb. unfold Rdiv at 2. rewrite Rabs_mult, Rabs_inv.
      replace ((Rabs (IZR a) + 2 * Rabs (IZR b)) / (2251799813685248 * Rabs (IZR c))) with ((Rabs (IZR a) + 2 * Rabs (IZR b)) / 2251799813685248 * / Rabs (IZR c)) by (field; lra).
      apply Rmult_lt_compat_r; [apply Rinv_0_lt_compat; lra|]. apply IZR_le in H. change (IZR (2 ^ 24)) with 16777216 in H.
      assert (P1 : 0 < IZR N). { destruct (Rle_lt_dec (IZR N) 0) as [L|L]; [|exact L]. pose proof (Rabs_pos (IZR a + IZR b * TAU)). apply IZR_le in PN. assert (IZR N = 0) by lra. rewrite H1 in G. lra. }
      apply (Rmult_lt_reg_r (17/10 * IZR N)); [lra|]. eapply Rlt_le_trans; [|exact G].
      assert ((Rabs (IZR a) + 2 * Rabs (IZR b)) / 2251799813685248 * (17 / 10 * IZR N) <= (3 * 16777216) / 2251799813685248 * (17/10 * 16777216)) by (apply Rmult_le_compat; [apply Rmult_le_pos; [pose proof (Rabs_pos (IZR a)); pose proof (Rabs_pos (IZR b)); lra|lra]|lra|lra|lra]). lra.
    + destruct (Z.eq_dec N 0) as [ZN|ZN]. { exfalso. apply NZ. assert (a = 0%Z) by lia. assert (b = 0%Z) by lia. subst. unfold val; cbn. unfold Rdiv. ring. }
      eapply Rlt_le_trans; [|exact H]. assert (PNr : 1 <= IZR N) by (apply IZR_le; lia).
      assert (Eq : IZR q = Rabs (IZR k) * Rabs (IZR c)) by (rewrite <- Rabs_mult, <- mult_IZR, Ek; symmetry; apply Rabs_pos_eq, IZR_le; lia). rewrite Eq.
      apply abs_IZR_le in Ka, Kb. rewrite mult_IZR, Rabs_mult in Ka. rewrite mult_IZR, Rabs_mult in Kb.
      apply (Rmult_lt_reg_r (Rabs (IZR k) * Rabs (IZR c))); [apply Rmult_lt_0_compat; lra|].
      replace (IZR N / (500000000000000 * (Rabs (IZR k) * Rabs (IZR c))) * (Rabs (IZR k) * Rabs (IZR c))) with (IZR N / 500000000000000) by (field; lra).
      replace ((Rabs (IZR a) + 2 * Rabs (IZR b)) / (2251799813685248 * Rabs (IZR c)) * (Rabs (IZR k) * Rabs (IZR c))) with ((Rabs (IZR k) * Rabs (IZR a) + 2 * (Rabs (IZR k) * Rabs (IZR b))) / 2251799813685248) by (field; lra). lra.
Qed.
(** The test a1+a2*TAU < 0 of dode2, where TAU = sqrt(3)/2. *)
Lemma float_neg_sin q N v : on_grid q N v -> (N <= 2^53)%Z ->
  ((N <= 2^23)%Z \/ val SIN v = 0 \/ IZR N / (500000000000000 * IZR q) <= Rabs (val SIN v)) ->
  flt Bnum (fadd Bnum (fZ Bnum (ta v)) (fmul Bnum (fZ Bnum (tb v)) (fsin Bnum))) (fZ Bnum 0) = neg_sqrt 3 (2 * ta v) (tb v).
Proof.
  intros G HN H. destruct (grid_small _ _ _ G) as (Sa & Sb & Sc). pose proof (grid_pos _ _ _ G) as PN. destruct G as (Pq & k & Ek & Ka & Kb).
  destruct v as [a b c]. cbn [ta tb tc] in *.
  assert (Pc : c <> 0%Z) by (intros ->; lia). assert (Pk0 : k <> 0%Z) by (intros ->; lia).
  assert (Pk : 1 <= Rabs (IZR k)) by (apply int_ge1, not_0_IZR; exact Pk0). assert (Pc' : 1 <= Rabs (IZR c)) by (apply int_ge1, not_0_IZR; exact Pc). assert (Pc0 : IZR c <> 0) by (apply not_0_IZR; exact Pc).
  pose proof (sum_apx (fsin Bnum) SIN a b fsin_apx SIN_162 ltac:(lia) ltac:(lia)) as A.
  assert (E : neg_sqrt 3 (2 * a) b = true <-> IZR a + IZR b * SIN < 0).
  { rewrite neg_sqrt_spec by lia. replace (IZR (2 * a) + IZR b * sqrt (IZR 3)) with (2 * (IZR a + IZR b * SIN)); [split; lra|]. rewrite mult_IZR. unfold SIN. field. }
  assert (Vv : val SIN (T a b c) = (IZR a + IZR b * SIN) / IZR c) by reflexivity.
  apply eq_true_iff_eq. rewrite E. apply (sign_apx _ _ _ A).
  - intros Z1. apply SIN_irrational in Z1 as [-> ->]. rewrite Rabs_R0. unfold Rdiv. ring.
  - intros NZ. destruct H as [H|[H|H]].
    + pose proof (sin_gap a b N Sa Sb NZ) as G. apply abs_IZR_le in Sa, Sb. apply IZR_le in H. change (IZR (2 ^ 23)) with 8388608 in H.
      assert (P1 : 0 < IZR N). { destruct (Rle_lt_dec (IZR N) 0) as [L|L]; [|exact L]. apply IZR_le in PN. assert (Z0 : IZR N = 0) by lra. rewrite Z0 in G. lra. }
      apply (Rmult_lt_reg_r (76/10 * IZR N)); [lra|]. eapply Rlt_le_trans; [|exact G].
      assert ((Rabs (IZR a) + 2 * Rabs (IZR b)) / 2251799813685248 * (76 / 10 * IZR N) <= (3 * 8388608) / 2251799813685248 * (76/10 * 8388608)) by (apply Rmult_le_compat; [apply Rmult_le_pos; [pose proof (Rabs_pos (IZR a)); pose proof (Rabs_pos (IZR b)); lra|lra]|lra|lra|lra]). lra.
    + exfalso. apply NZ. rewrite Vv in H. apply (Rmult_eq_reg_r (/ IZR c)); [unfold Rdiv in H; lra|apply Rinv_neq_0_compat; exact Pc0].
    + destruct (Z.eq_dec N 0) as [ZN|ZN]. { exfalso. apply NZ. assert (a = 0%Z) by lia. assert (b = 0%Z) by lia. subst. ring. }
      assert (PNr : 1 <= IZR N) by (apply IZR_le; lia).
      assert (Eq : IZR q = Rabs (IZR k) * Rabs (IZR c)) by (rewrite <- Rabs_mult, <- mult_IZR, Ek; symmetry; apply Rabs_pos_eq, IZR_le; lia). rewrite Eq, Vv in H. unfold Rdiv in H at 2. rewrite Rabs_mult, Rabs_inv in H.
      apply abs_IZR_le in Ka, Kb. rewrite mult_IZR, Rabs_mult in Ka. rewrite mult_IZR, Rabs_mult in Kb.
      apply (Rmult_lt_reg_l (Rabs (IZR k))); [lra|].
      assert (H' : IZR N / 500000000000000 <= Rabs (IZR k) * Rabs (IZR a + IZR b * SIN)).
      { apply (Rmult_le_compat_r (Rabs (IZR k) * Rabs (IZR c))) in H; [|apply Rmult_le_pos; lra]. replace (IZR N / (500000000000000 * (Rabs (IZR k) * Rabs (IZR c))) * (Rabs (IZR k) * Rabs (IZR c))) with (IZR N / 500000000000000) in H by (field; lra).
        replace (Rabs (IZR a + IZR b * SIN) * / Rabs (IZR c) * (Rabs (IZR k) * Rabs (IZR c))) with (Rabs (IZR k) * Rabs (IZR a + IZR b * SIN)) in H by (field; lra). exact H. }
      eapply Rlt_le_trans; [|exact H'].
      replace (Rabs (IZR k) * ((Rabs (IZR a) + 2 * Rabs (IZR b)) / 2251799813685248)) with ((Rabs (IZR k) * Rabs (IZR a) + 2 * (Rabs (IZR k) * Rabs (IZR b))) / 2251799813685248) by field. lra.
Qed.
