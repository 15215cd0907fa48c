(** Accuracy of the ways to evaluate np.dot and np.linalg.det. *)
From Coq Require Import Reals List ZArith Bool Lia Lra Psatz Permutation Arith.
From Flocq Require Import Core IEEE754.BinarySingleNaN IEEE754.Binary IEEE754.Bits.
From Verif Require Import Base.Res Model.Num Model.LinAlg Spec.LinAlg Spec.Space Proofs.MachineLemmas Proofs.RoundLemmas Proofs.FloatCalc.
Import ListNotations.
Local Open Scope R_scope.
Local Existing Instance textbook.

Lemma bfma_err x y z : Bfin x = true -> Bfin y = true -> Bfin z = true -> Rabs (Bv x * Bv y + Bv z) <= bpow radix2 500 ->
  apx (b64_fma mode_NE x y z) (Bv x * Bv y + Bv z) (ulp1 * Rabs (Bv x * Bv y + Bv z) + eta) /\ (0 <= Bv x * Bv y + Bv z -> 0 <= Bv (b64_fma mode_NE x y z)).
Proof.
  intros Fx Fy Fz H. unfold b64_fma.
  match goal with |- context [Bfma 53 1024 ?a ?b ?n ?m _ _ _] => pose proof (Bfma_correct 53 1024 a b n m x y z Fx Fy Fz) as C end. cbv zeta in C.
  rewrite Rlt_bool_true in C by (apply big_ok; exact H). destruct C as (V & Fv & _). split; [split; [exact Fv|]|].
  - rewrite V. apply rnd_err.
  - intros Z. rewrite V. apply round_ge_generic; [apply fexp_correct; reflexivity|apply valid_rnd_N|apply generic_format_0|exact Z].
Qed.
Lemma bmult_pos x y : Bfin x = true -> Bfin y = true -> Rabs (Bv x * Bv y) <= bpow radix2 500 -> 0 <= Bv x * Bv y -> 0 <= Bv (b64_mult mode_NE x y).
Proof.
  intros Fx Fy H Z. unfold b64_mult. match goal with |- context [Bmult 53 1024 ?a ?b ?n ?m _ _] => pose proof (Bmult_correct 53 1024 a b n m x y) as C end.
  rewrite Rlt_bool_true in C by (apply big_ok; exact H). destruct C as (V & _). rewrite V. apply round_ge_generic; [apply fexp_correct; reflexivity|apply valid_rnd_N|apply generic_format_0|exact Z].
Qed.
Lemma bplus_nonneg x y : Bfin x = true -> Bfin y = true -> Rabs (Bv x + Bv y) <= bpow radix2 500 -> 0 <= Bv x + Bv y -> 0 <= Bv (b64_plus mode_NE x y).
Proof.
  intros Fx Fy H Z. unfold b64_plus. match goal with |- context [Bplus 53 1024 ?a ?b ?n ?m _ _] => pose proof (Bplus_correct 53 1024 a b n m x y Fx Fy) as C end.
  rewrite Rlt_bool_true in C by (apply big_ok; exact H). destruct C as (V & _). rewrite V. apply round_ge_generic; [apply fexp_correct; reflexivity|apply valid_rnd_N|apply generic_format_0|exact Z].
Qed.

(** Exact value and size of a plan, number of roundings on the longest path. *)
Section Plan.
Variables l m : list binary64.
Definition at_ (k : list binary64) (i : nat) : R := Bv (nth i k (B64 0)).
Definition term (i : nat) : R := at_ l i * at_ m i.
Fixpoint exact (p : plan) : R := match p with Prod i => term i | Sum p q => exact p + exact q | Fma i p => term i + exact p end.
Fixpoint mass (p : plan) : R := match p with Prod i => Rabs (term i) | Sum p q => mass p + mass q | Fma i p => Rabs (term i) + mass p end.
Fixpoint height (p : plan) : nat := match p with Prod i => 1 | Sum p q => S (Nat.max (height p) (height q)) | Fma i p => S (height p) end.
Definition huge : R := bpow radix2 450.
Hypothesis Fin : forall i, Bfin (nth i l (B64 0)) = true /\ Bfin (nth i m (B64 0)) = true.

Lemma mass_pos p : 0 <= mass p.
Proof. induction p as [i|p IHp q IHq|i p IHp]; cbn [mass]; [apply Rabs_pos|lra|pose proof (Rabs_pos (term i)); lra]. Qed.
Lemma mass_exact p : Rabs (exact p) <= mass p.
Proof.
  induction p; cbn [mass exact]; [lra|eapply Rle_trans; [apply Rabs_triang|lra]|eapply Rle_trans; [apply Rabs_triang|lra]].
Qed.
Lemma height_pos p : (1 <= height p)%nat. Proof. destruct p; cbn [height]; lia. Qed.
Lemma step_err h v r a z : (h <= 9)%nat -> 0 <= a -> Rabs r <= a -> Rabs (v - r) <= INR h * (11/10 * (ulp1 * a)) + 2 * ((4 * 2 ^ h - 2) * eta) -> Rabs (z - v) <= ulp1 * Rabs v + eta ->
  Rabs (z - r) <= INR (S h) * (11/10 * (ulp1 * a)) + (4 * 2 ^ (S h) - 2) * eta.
Proof.
  intros Hh A Rr E Z. replace (z - r) with ((z - v) + (v - r)) by ring. eapply Rle_trans; [apply Rabs_triang|].
  assert (Av : Rabs v <= a + INR h * (11/10 * (ulp1 * a)) + 2 * ((4 * 2 ^ h - 2) * eta)) by (replace v with (r + (v - r)) by ring; eapply Rle_trans; [apply Rabs_triang|]; lra).
  assert (H9 : 0 <= INR h <= 9) by (split; [apply pos_INR|change 9 with (IZR (Z.of_nat 9)); rewrite <- INR_IZR_INZ; apply le_INR; exact Hh]).
  assert (W : 1 <= 2 ^ h <= 512) by (clear - Hh; do 10 (destruct h as [|h]; [cbn; lra|]); lia).
  rewrite S_INR. replace (2 ^ (S h)) with (2 * 2 ^ h) by reflexivity. set (n := INR h) in *. set (w := 2 ^ h) in *. clearbody n w.
  pose proof eta_pos as Ep. assert (U : 0 < ulp1 <= / 1000000000000000) by (unfold ulp1; lra).
  assert (T : 0 <= ulp1 * a) by (apply Rmult_le_pos; lra). set (t := ulp1 * a) in *.
  assert (Nt : 0 <= n * t <= 9 * t) by (split; [apply Rmult_le_pos|apply Rmult_le_compat_r]; lra).
  assert (We : 1 * eta <= w * eta <= 512 * eta) by (split; apply Rmult_le_compat_r; lra).
  assert (X : ulp1 * Rabs v <= t + / 1000000000000000 * (n * (11/10 * t) + 2 * ((4 * w - 2) * eta))).
  { apply Rle_trans with (ulp1 * (a + (n * (11 / 10 * t) + 2 * ((4 * w - 2) * eta)))); [apply Rmult_le_compat_l; lra|]. rewrite Rmult_plus_distr_l. fold t. apply Rplus_le_compat_l. apply Rmult_le_compat_r; lra. }
  lra.
Qed.
Lemma room_err h v r a : (h <= 9)%nat -> 0 <= a <= huge -> Rabs r <= a -> Rabs (v - r) <= INR h * (11/10 * (ulp1 * a)) + 2 * ((4 * 2 ^ h - 2) * eta) -> Rabs v <= bpow radix2 500.
Proof.
  intros Hh A Rr E.
  assert (Av : Rabs v <= a + INR h * (11/10 * (ulp1 * a)) + 2 * ((4 * 2 ^ h - 2) * eta)) by (replace v with (r + (v - r)) by ring; eapply Rle_trans; [apply Rabs_triang|]; lra).
  assert (H9 : 0 <= INR h <= 9) by (split; [apply pos_INR|change 9 with (IZR (Z.of_nat 9)); rewrite <- INR_IZR_INZ; apply le_INR; exact Hh]).
  assert (W : 1 <= 2 ^ h <= 512) by (clear - Hh; do 10 (destruct h as [|h]; [cbn; lra|]); lia).
  pose proof eta_pos as Ep. pose proof eta_lt as El. assert (U : 0 < ulp1 <= 1/1000) by (unfold ulp1; lra).
  assert (H5 : huge * 4 <= bpow radix2 500) by (unfold huge; replace 4 with (bpow radix2 2) by (cbn; lra); rewrite <- bpow_plus; apply bpow_le; lia).
  assert (H1 : 1 <= huge) by (unfold huge; change 1 with (bpow radix2 0); apply bpow_le; lia).
  assert (T : 0 <= ulp1 * a <= 1/1000 * a) by (split; [apply Rmult_le_pos|apply Rmult_le_compat_r]; lra).
  assert (INR h * (11/10 * (ulp1 * a)) <= 9 * (11/10 * (ulp1 * a))) by (apply Rmult_le_compat_r; lra).
  assert ((4 * 2 ^ h - 2) * eta <= 2046 * eta) by (apply Rmult_le_compat_r; lra). lra.
Qed.
Lemma run_err p : forall h, (height p <= h <= 10)%nat -> mass p <= huge ->
  Bfin (run p l m) = true /\ Rabs (Bv (run p l m) - exact p) <= INR h * (11/10 * (ulp1 * mass p)) + (4 * 2 ^ h - 2) * eta /\
  ((forall i, 0 <= term i) -> 0 <= Bv (run p l m)).
Proof.
  induction p as [i|p IHp q IHq|i p IHp]; intros h Hh Hm; (destruct h as [|h]; [cbn [height] in Hh; lia|]); assert (H9 : (h <= 9)%nat) by lia; cbn [run exact mass height] in *.
  - destruct (Fin i) as [Fx Fy]. fold (at_ l i) (at_ m i).
    assert (E0 : Rabs (term i - term i) <= INR h * (11/10 * (ulp1 * Rabs (term i))) + 2 * ((4 * 2 ^ h - 2) * eta)).
    { replace (term i - term i) with 0 by ring. rewrite Rabs_R0. pose proof eta_pos. assert (1 <= 2 ^ h) by (apply pow_R1_Rle; lra). pose proof (Rabs_pos (term i)). pose proof (pos_INR h).
      assert (0 <= ulp1) by (unfold ulp1; lra). apply Rplus_le_le_0_compat; [apply Rmult_le_pos; [lra|]|apply Rmult_le_pos; [lra|apply Rmult_le_pos; lra]]. apply Rmult_le_pos; [lra|]. apply Rmult_le_pos; lra. }
    pose proof (room_err h (term i) (term i) _ H9 (conj (Rabs_pos _) Hm) (Rle_refl _) E0) as Rm. 
    destruct (bmult_err _ _ Fx Fy Rm) as [[Fz Hz] _]. split; [exact Fz|]. split; [|intros P; apply bmult_pos; [exact Fx|exact Fy|exact Rm|apply P]].
    exact (step_err h _ _ _ _ H9 (Rabs_pos _) (Rle_refl _) E0 Hz).
  - pose proof (mass_pos p). pose proof (mass_pos q). destruct (IHp h ltac:(lia) ltac:(lra)) as (Fp & Ep & Pp). destruct (IHq h ltac:(lia) ltac:(lra)) as (Fq & Eq & Pq).
    assert (E0 : Rabs (Bv (run p l m) + Bv (run q l m) - (exact p + exact q)) <= INR h * (11/10 * (ulp1 * (mass p + mass q))) + 2 * ((4 * 2 ^ h - 2) * eta)).
    { replace (Bv (run p l m) + Bv (run q l m) - (exact p + exact q)) with ((Bv (run p l m) - exact p) + (Bv (run q l m) - exact q)) by ring. eapply Rle_trans; [apply Rabs_triang|]. lra. }
    assert (Rr : Rabs (exact p + exact q) <= mass p + mass q) by (eapply Rle_trans; [apply Rabs_triang|]; pose proof (mass_exact p); pose proof (mass_exact q); lra).
    assert (A0 : 0 <= mass p + mass q) by lra. pose proof (room_err h _ _ _ H9 (conj A0 Hm) Rr E0) as Rm.
    destruct (bplus_err _ _ Fp Fq Rm) as [[Fz Hz] _]. split; [exact Fz|]. split; [|intros P; specialize (Pp P); specialize (Pq P); apply bplus_nonneg; [exact Fp|exact Fq|exact Rm|lra]].
    exact (step_err h _ _ _ _ H9 A0 Rr E0 Hz).
  - destruct (Fin i) as [Fx Fy]. pose proof (mass_pos p). pose proof (Rabs_pos (term i)). destruct (IHp h ltac:(lia) ltac:(lra)) as (Fp & Ep & Pp).
    assert (E0 : Rabs (at_ l i * at_ m i + Bv (run p l m) - (term i + exact p)) <= INR h * (11/10 * (ulp1 * (Rabs (term i) + mass p))) + 2 * ((4 * 2 ^ h - 2) * eta)).
    { unfold term. replace (at_ l i * at_ m i + Bv (run p l m) - (at_ l i * at_ m i + exact p)) with (Bv (run p l m) - exact p) by ring. eapply Rle_trans; [exact Ep|].
      pose proof eta_pos. assert (1 <= 2 ^ h) by (apply pow_R1_Rle; lra). pose proof (pos_INR h). assert (0 <= ulp1) by (unfold ulp1; lra).
      assert (0 <= INR h * (11/10 * (ulp1 * Rabs (at_ l i * at_ m i)))) by (apply Rmult_le_pos; [lra|apply Rmult_le_pos; [lra|apply Rmult_le_pos; [lra|apply Rabs_pos]]]).
      assert (0 <= (4 * 2 ^ h - 2) * eta) by (apply Rmult_le_pos; lra). lra. }
    assert (Rr : Rabs (term i + exact p) <= Rabs (term i) + mass p) by (eapply Rle_trans; [apply Rabs_triang|]; pose proof (mass_exact p); lra).
    assert (A0 : 0 <= Rabs (term i) + mass p) by lra. pose proof (room_err h _ _ _ H9 (conj A0 Hm) Rr E0) as Rm.
    destruct (bfma_err _ _ _ Fx Fy Fp Rm) as [[Fz Hz] Pz]. split; [exact Fz|]. split; [|intros P; specialize (Pp P); apply Pz; pose proof (P i) as Pi; unfold term, at_ in Pi; lra].
    exact (step_err h _ _ _ _ H9 A0 Rr E0 Hz).
Qed.
Lemma exact_uses p : exact p = fold_right Rplus 0 (map term (uses p)).
Proof.
  assert (A : forall a b, fold_right Rplus 0 (map term (a ++ b)) = fold_right Rplus 0 (map term a) + fold_right Rplus 0 (map term b)).
  { intros a b. induction a; cbn; [ring|]. rewrite IHa. ring. }
  induction p; cbn [exact uses]; [cbn; ring|rewrite A; congruence|cbn; congruence].
Qed.
Lemma mass_uses p : mass p = fold_right Rplus 0 (map (fun i => Rabs (term i)) (uses p)).
Proof.
  assert (A : forall a b, fold_right Rplus 0 (map (fun i => Rabs (term i)) (a ++ b)) = fold_right Rplus 0 (map (fun i => Rabs (term i)) a) + fold_right Rplus 0 (map (fun i => Rabs (term i)) b)).
  { intros a b. induction a; cbn; [ring|]. rewrite IHa. ring. }
  induction p; cbn [mass uses]; [cbn; ring|rewrite A; congruence|cbn; congruence].
Qed.
Lemma height_uses p : (height p <= length (uses p))%nat.
Proof.
  assert (U : forall p, (1 <= length (uses p))%nat) by (clear; induction p as [|p IHp q IHq|]; cbn [uses]; rewrite ?app_length; cbn; lia).
  induction p as [|p IHp q IHq|]; cbn [height uses]; rewrite ?app_length; cbn [length]; [lia|pose proof (U p); pose proof (U q); lia|lia].
Qed.
End Plan.

Lemma sum_perm (f : nat -> R) a b : Permutation a b -> fold_right Rplus 0 (map f a) = fold_right Rplus 0 (map f b).
Proof. intros H. induction H; cbn; lra. Qed.

Lemma plan_ok p : Permutation (uses p) [0; 1; 2]%nat -> dot_ok (run p).
Proof.
  intros Hp [[a b] c] [[a' b'] c'] (Fa & Fb & Fc) (Fa' & Fb' & Fc').
  set (l := [a; b; c]). set (m := [a'; b'; c']).
  assert (Z0 : Bfin (B64 0) = true) by reflexivity.
  assert (Fin : forall i, Bfin (nth i l (B64 0)) = true /\ Bfin (nth i m (B64 0)) = true).
  { intros [|[|[|[|i]]]]; cbn [l m nth]; split; try exact Z0; try apply Fa; try apply Fb; try apply Fc; try apply Fa'; try apply Fb'; try apply Fc'. }
  pose proof (height_uses p) as Hh. rewrite (Permutation_length Hp) in Hh. cbn [length] in Hh.
  assert (Ex : exact l m p = Bv a * Bv a' + Bv b * Bv b' + Bv c * Bv c') by (rewrite exact_uses, (sum_perm _ _ _ Hp); cbn; unfold term, at_; cbn; ring).
  assert (Ms : mass l m p = Rabs (Bv a * Bv a') + Rabs (Bv b * Bv b') + Rabs (Bv c * Bv c')) by (rewrite mass_uses, (sum_perm _ _ _ Hp); cbn; unfold term, at_; cbn; ring).
  assert (Lm : mass l m p <= huge).
  { rewrite Ms. assert (Q : forall x y, fin_le (bpow radix2 200) x -> fin_le (bpow radix2 200) y -> Rabs (Bv x * Bv y) <= bpow radix2 400).
    { intros x y [_ Hx] [_ Hy]. rewrite Rabs_mult. replace (bpow radix2 400) with (bpow radix2 200 * bpow radix2 200) by (rewrite <- bpow_plus; reflexivity). apply Rmult_le_compat; try apply Rabs_pos; assumption. }
    pose proof (Q _ _ Fa Fa'). pose proof (Q _ _ Fb Fb'). pose proof (Q _ _ Fc Fc'). unfold huge.
    assert (bpow radix2 400 * 4 <= bpow radix2 450) by (replace 4 with (bpow radix2 2) by (cbn; lra); rewrite <- bpow_plus; apply bpow_le; lia). pose proof (bpow_gt_0 radix2 400). lra. }
  destruct (run_err l m Fin p 3 ltac:(lia) Lm) as (Fr & Er & Pr). rewrite Ex, Ms in Er. split; [exact Fr|]. split.
  - cbn [val3 abs3 dot3]. rewrite <- !Rabs_mult. eapply Rle_trans; [exact Er|].
    assert (Eu : bpow radix2 (-53) = ulp1) by (unfold ulp1; cbn; reflexivity). rewrite Eu. pose proof (mass_pos l m p) as M0. rewrite Ms in M0. set (M := Rabs (Bv a * Bv a') + Rabs (Bv b * Bv b') + Rabs (Bv c * Bv c')) in *.
    assert (0 <= ulp1 * M) by (apply Rmult_le_pos; [unfold ulp1; lra|exact M0]). replace (INR 3) with 3 by (cbn; ring).
    assert (Et : (4 * 2 ^ 3 - 2) * eta <= bpow radix2 (-1000)).
    { unfold eta. replace ((4 * 2 ^ 3 - 2) * (/ 2 * bpow radix2 (-1074))) with (15 * bpow radix2 (-1074)) by (cbn [pow]; field).
      apply Rle_trans with (bpow radix2 4 * bpow radix2 (-1074)); [apply Rmult_le_compat_r; [apply bpow_ge_0|cbn; lra]|]. rewrite <- bpow_plus. apply bpow_le. lia. }
    lra.
  - intros E. injection E as <- <- <-. apply Pr. intros [|[|[|[|i]]]]; unfold term, at_; cbn [l m nth]; try nra.
Qed.

(** The textbook determinant. *)
Lemma det_textbook_ok : det_ok (@la_det textbook).
Proof.
  intros M [[a0 a1] a2] [[b0 b1] b2] [[c0 c1] c2] HM (A0 & A1 & A2) (B0 & B1 & B2) (C0 & C1 & C2).
  set (k := / 2251799813685248). assert (Hk : 0 < k <= 1/1048576) by (unfold k; lra). assert (Hu : ulp1 <= 1/4 * k) by (unfold ulp1, k; lra). assert (Hq : 1/100 <= 1/4 <= 1) by lra.
  assert (Sz : forall s, 1/1000000000 <= s <= 2000000000 -> size k s).
  { intros s Hs. pose proof eta_lt. pose proof eta_pos. assert (1000000000000 <= big) by (unfold big; apply Rle_trans with (bpow radix2 40); [cbn; lra|apply bpow_le; lia]). unfold size. split; [lra|]. split; [unfold k; lra|lra]. }
  assert (M2 : 1/1000000 <= M * M <= 1002001) by nra. assert (M3 : 1/1000000000 <= M * (M * M) <= 1003003001) by nra.
  assert (G0 : forall x, fin_le M x -> G k M x (Bv x) 0 /\ Rabs (Bv x) <= 1 * M) by (intros x [Fx Lx]; split; [apply G_exact; [lra|exact Fx|reflexivity]|lra]).
  assert (Mi : forall x y z w, fin_le M x -> fin_le M y -> fin_le M z -> fin_le M w -> G k (M * M) (fsub Bmath (fmul Bmath x y) (fmul Bmath z w)) (Bv x * Bv y - Bv z * Bv w) (12/10) /\ Rabs (Bv x * Bv y - Bv z * Bv w) <= 2 * (M * M)).
  { assert (Pr : forall x y, fin_le M x -> fin_le M y -> G k (M * M) (fmul Bmath x y) (Bv x * Bv y) (26/100) /\ Rabs (Bv x * Bv y) <= M * M).
    { intros x y Hx Hy. destruct (G0 x Hx) as [Gx Lx], (G0 y Hy) as [Gy Ly]. split.
      - apply (G_mul k (1/4) Hk Hu Hq M M x y _ _ 0 0 1 1 _ (Sz (M * M) ltac:(lra))); try assumption; lra.
      - rewrite Rabs_mult. apply Rmult_le_compat; try apply Rabs_pos; lra. }
    intros x y z w Hx Hy Hz Hw. destruct (Pr x y Hx Hy) as [G1 L1], (Pr z w Hz Hw) as [G2 L2].
    assert (L : Rabs (Bv x * Bv y - Bv z * Bv w) <= 2 * (M * M)) by (unfold Rminus; eapply Rle_trans; [apply Rabs_triang|]; rewrite Rabs_Ropp; lra). split; [|exact L].
    apply (G_sub k (1/4) Hk Hu Hq (M * M) _ _ _ _ (26/100) (26/100) 2 _ (Sz (M * M) ltac:(lra))); try assumption; lra. }
  assert (Pr : forall x y t, fin_le M x -> G k (M * M) y t (12/10) /\ Rabs t <= 2 * (M * M) -> G k (M * (M * M)) (fmul Bmath x y) (Bv x * t) (18/10) /\ Rabs (Bv x * t) <= 2 * (M * (M * M))).
  { intros x y t Hx [Gy Ly]. destruct (G0 x Hx) as [Gx Lx]. split.
    - apply (G_mul k (1/4) Hk Hu Hq M (M * M) x y _ _ 0 (12/10) 1 2 _ (Sz (M * (M * M)) ltac:(lra))); try assumption; lra.
    - rewrite Rabs_mult. replace (2 * (M * (M * M))) with (M * (2 * (M * M))) by ring. apply Rmult_le_compat; try apply Rabs_pos; lra. }
  destruct (Pr _ _ _ A0 (Mi _ _ _ _ B1 C2 B2 C1)) as [G1 L1]. destruct (Pr _ _ _ A1 (Mi _ _ _ _ B2 C0 B0 C2)) as [G2 L2]. destruct (Pr _ _ _ A2 (Mi _ _ _ _ B0 C1 B1 C0)) as [G3 L3].
  assert (L12 : Rabs (Bv a0 * (Bv b1 * Bv c2 - Bv b2 * Bv c1) + Bv a1 * (Bv b2 * Bv c0 - Bv b0 * Bv c2)) <= 4 * (M * (M * M))) by (eapply Rle_trans; [apply Rabs_triang|]; lra).
  assert (L123 : Rabs (Bv a0 * (Bv b1 * Bv c2 - Bv b2 * Bv c1) + Bv a1 * (Bv b2 * Bv c0 - Bv b0 * Bv c2) + Bv a2 * (Bv b0 * Bv c1 - Bv b1 * Bv c0)) <= 6 * (M * (M * M))) by (eapply Rle_trans; [apply Rabs_triang|]; lra).
  pose proof (G_add k (1/4) Hk Hu Hq (M * (M * M)) _ _ _ _ (18/10) (18/10) 4 (47/10) (Sz (M * (M * M)) ltac:(lra)) ltac:(lra) ltac:(lra) G1 G2 L12 ltac:(lra) ltac:(lra)) as G12.
  pose proof (G_add k (1/4) Hk Hu Hq (M * (M * M)) _ _ _ _ (47/10) (18/10) 6 (82/10) (Sz (M * (M * M)) ltac:(lra)) ltac:(lra) ltac:(lra) G12 G3 L123 ltac:(lra) ltac:(lra)) as [Fd Hd].
  split; [exact Fd|].
  match goal with |- Rabs (?x - ?y) <= _ => replace y with (Bv a0 * (Bv b1 * Bv c2 - Bv b2 * Bv c1) + Bv a1 * (Bv b2 * Bv c0 - Bv b0 * Bv c2) + Bv a2 * (Bv b0 * Bv c1 - Bv b1 * Bv c0)) by (unfold triple3; cbn [val3 cross3 dot3]; ring) end.
  eapply Rle_trans; [exact Hd|]. assert (Eu : bpow radix2 (-53) = ulp1) by (unfold ulp1; cbn; reflexivity). rewrite Eu. replace (M ^ 3) with (M * (M * M)) by ring. unfold ulp1, k. lra.
Qed.
Lemma textbook_ok : linalg_ok textbook.
Proof.
  split; [|exact det_textbook_ok]. assert (H : dot_ok (run (Sum (Sum (Prod 0) (Prod 1)) (Prod 2)))) by (apply plan_ok; reflexivity).
  intros [[a b] c] [[a' b'] c']. exact (H (a, b, c) (a', b', c')).
Qed.
