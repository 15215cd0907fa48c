(** Rounding errors of the binary64 arithmetic. *)
From Coq Require Import Reals ZArith Bool Lia Lra Psatz.
From Flocq Require Import Core IEEE754.BinarySingleNaN IEEE754.Binary IEEE754.Bits Relative.
From Verif Require Import Base.Res Model.Tau Model.Num Model.IcoNumeric Model.DodeNumeric Spec.Value Proofs.MachineLemmas.
Local Open Scope R_scope.
Notation Bv := (B2R 53 1024).
Notation Bfin := (is_finite 53 1024).
Local Notation Bnum := Bmath.

Section Lib.
Context {la : linalg}.

(** Half a unit in the last place of 1, and half the smallest subnormal number. *)
Definition ulp1 : R := / 9007199254740992.
Definition eta : R := / 2 * bpow radix2 (-1074).

Lemma eta_pos : 0 < eta.
Proof. unfold eta. pose proof (bpow_gt_0 radix2 (-1074)). lra. Qed.
Lemma eta_small : eta * bpow radix2 500 <= 1.
Proof.
  unfold eta. rewrite Rmult_assoc, <- bpow_plus. assert (bpow radix2 (-1074 + 500) <= bpow radix2 0) by (apply bpow_le; lia). cbn [bpow] in *. lra.
Qed.
Lemma p53 : 9007199254740992 = bpow radix2 53. Proof. cbn. reflexivity. Qed.
Lemma eta_tiny : eta * 9007199254740992 * 9007199254740992 * 9007199254740992 * 9007199254740992 <= ulp1.
Proof.
  unfold ulp1. apply (Rmult_le_reg_r 9007199254740992); [lra|]. rewrite Rinv_l by lra.
  rewrite p53. rewrite !Rmult_assoc, <- !bpow_plus. change (53 + (53 + (53 + (53 + 53))))%Z with 265%Z.
  pose proof eta_pos. assert (bpow radix2 265 <= bpow radix2 500) by (apply bpow_le; lia). pose proof eta_small. nra.
Qed.
Lemma eta_lt : eta <= / 1000000000000000000000000000000.
Proof. pose proof eta_tiny as H. unfold ulp1 in H. pose proof eta_pos. lra. Qed.

Lemma rnd_err x : Rabs (round radix2 (SpecFloat.fexp 53 1024) (round_mode mode_NE) x - x) <= ulp1 * Rabs x + eta.
Proof.
  rewrite fexp64_FLT. destruct (error_N_FLT radix2 (-1074) 53 ltac:(lia) (fun z => negb (Z.even z)) x) as (e & h & He & Hh & _ & E).
  cbn [round_mode]. unfold ZnearestE in *. rewrite E.
  replace (x * (1 + e) + h - x) with (e * x + h) by ring. eapply Rle_trans; [apply Rabs_triang|]. rewrite Rabs_mult.
  assert (Rabs e <= ulp1) by (replace ulp1 with (/2 * bpow radix2 (-53 + 1)); [exact He|]; unfold ulp1; cbn; field).
  pose proof (Rabs_pos x). apply Rplus_le_compat; [apply Rmult_le_compat_r; assumption|exact Hh].
Qed.
Lemma big_ok x : Rabs x <= bpow radix2 500 -> Rabs (round radix2 (SpecFloat.fexp 53 1024) (round_mode mode_NE) x) < bpow radix2 1024.
Proof.
  intros H. pose proof (rnd_err x) as E. pose proof (Rabs_triang_inv (round radix2 (SpecFloat.fexp 53 1024) (round_mode mode_NE) x) x) as T.
  assert (B : bpow radix2 500 * 4 <= bpow radix2 1024) by (replace 4 with (bpow radix2 2) by (cbn; lra); rewrite <- bpow_plus; apply bpow_le; lia).
  assert (P : 1 <= bpow radix2 500) by (change 1 with (bpow radix2 0); apply bpow_le; lia).
  pose proof eta_lt. unfold ulp1 in E. pose proof (Rabs_pos x). lra.
Qed.

(** x is a finite double within e of r. *)
Definition apx (x : binary64) (r e : R) : Prop := Bfin x = true /\ Rabs (Bv x - r) <= e.

Lemma apx_Z z : (Z.abs z <= 2 ^ 53)%Z -> apx (fZ Bnum z) (IZR z) 0 /\ Bv (fZ Bnum z) = IZR z.
Proof.
  intros H. destruct (f64_exact z H) as [V Fz]. change (fZ Bnum z) with (Machine.f64 z). split; [split; [exact Fz|]|exact V].
  rewrite V. replace (IZR z - IZR z) with 0 by ring. rewrite Rabs_R0. lra.
Qed.
Lemma apx_weaken x r e e' : apx x r e -> e <= e' -> apx x r e'.
Proof. intros [Fx H] L. split; [exact Fx|lra]. Qed.
Lemma apx_abs x r e : apx x r e -> Rabs (Bv x) <= Rabs r + e.
Proof. intros [_ H]. replace (Bv x) with (r + (Bv x - r)) by ring. eapply Rle_trans; [apply Rabs_triang|]. lra. Qed.

Lemma bplus_err x y : Bfin x = true -> Bfin y = true -> Rabs (Bv x + Bv y) <= bpow radix2 500 ->
  apx (fadd Bnum x y) (Bv x + Bv y) (ulp1 * Rabs (Bv x + Bv y) + eta) /\ (Bv x + Bv y = 0 -> Bv (fadd Bnum x y) = 0).
Proof.
  intros Fx Fy H. change (fadd Bnum x y) with (b64_plus mode_NE x y). unfold b64_plus.
  match goal with |- context [Bplus 53 1024 ?a ?b ?n ?m _ _] => pose proof (Bplus_correct 53 1024 a b n m x y Fx Fy) as C end.
  rewrite Rlt_bool_true in C by (apply big_ok; exact H). destruct C as (V & Fz & _). split; [split; [exact Fz|]|].
  - rewrite V. apply rnd_err.
  - intros Z. rewrite V, Z. apply round_0, valid_rnd_N.
Qed.
Lemma bminus_err x y : Bfin x = true -> Bfin y = true -> Rabs (Bv x - Bv y) <= bpow radix2 500 ->
  apx (fsub Bnum x y) (Bv x - Bv y) (ulp1 * Rabs (Bv x - Bv y) + eta) /\ (Bv x - Bv y = 0 -> Bv (fsub Bnum x y) = 0).
Proof.
  intros Fx Fy H. change (fsub Bnum x y) with (b64_minus mode_NE x y). unfold b64_minus.
  match goal with |- context [Bminus 53 1024 ?a ?b ?n ?m _ _] => pose proof (Bminus_correct 53 1024 a b n m x y Fx Fy) as C end.
  rewrite Rlt_bool_true in C by (apply big_ok; exact H). destruct C as (V & Fz & _). split; [split; [exact Fz|]|].
  - rewrite V. apply rnd_err.
  - intros Z. rewrite V, Z. apply round_0, valid_rnd_N.
Qed.
Lemma bmult_err x y : Bfin x = true -> Bfin y = true -> Rabs (Bv x * Bv y) <= bpow radix2 500 ->
  apx (fmul Bnum x y) (Bv x * Bv y) (ulp1 * Rabs (Bv x * Bv y) + eta) /\ (Bv x * Bv y = 0 -> Bv (fmul Bnum x y) = 0).
Proof.
  intros Fx Fy H. change (fmul Bnum x y) with (b64_mult mode_NE x y). unfold b64_mult.
  match goal with |- context [Bmult 53 1024 ?a ?b ?n ?m _ _] => pose proof (Bmult_correct 53 1024 a b n m x y) as C end.
  rewrite Rlt_bool_true in C by (apply big_ok; exact H). destruct C as (V & Fz & _). rewrite Fx, Fy in Fz. split; [split; [exact Fz|]|].
  - rewrite V. apply rnd_err.
  - intros Z. rewrite V, Z. apply round_0, valid_rnd_N.
Qed.
Lemma bdiv_err x y : Bfin x = true -> Bfin y = true -> Bv y <> 0 -> Rabs (Bv x / Bv y) <= bpow radix2 500 ->
  apx (fdiv Bnum x y) (Bv x / Bv y) (ulp1 * Rabs (Bv x / Bv y) + eta) /\ (Bv x / Bv y = 0 -> Bv (fdiv Bnum x y) = 0).
Proof.
  intros Fx Fy Ny H. change (fdiv Bnum x y) with (b64_div mode_NE x y). unfold b64_div.
  match goal with |- context [Bdiv 53 1024 ?a ?b ?n ?m _ _] => pose proof (Bdiv_correct 53 1024 a b n m x y Ny) as C end.
  rewrite Rlt_bool_true in C by (apply big_ok; exact H). destruct C as (V & Fz & _). rewrite Fx in Fz. split; [split; [exact Fz|]|].
  - rewrite V. apply rnd_err.
  - intros Z. rewrite V, Z. apply round_0, valid_rnd_N.
Qed.

(** The constants TAU and SIN. *)
Lemma B2R_of x s m e : B2FF 53 1024 x = F754_finite s m e -> Bfin x = true /\ Bv x = F2R (Float radix2 (cond_Zopp s (Zpos m)) e).
Proof.
  intros E. split; [|rewrite <- FF2R_B2FF, E; reflexivity]. destruct x; try discriminate; reflexivity.
Qed.
Lemma ftau_apx : apx (ftau Bnum) TAU (2 * ulp1).
Proof.
  assert (E : B2FF 53 1024 (ftau Bnum) = F754_finite false 7286977268806824 (-52)) by (vm_cast_no_check (eq_refl (F754_finite false 7286977268806824 (-52)))).
  apply B2R_of in E as [Fx V]. split; [exact Fx|]. rewrite V. unfold F2R. cbn [Fnum Fexp cond_Zopp].
  replace (bpow radix2 (-52)) with (/ 4503599627370496) by (cbn; reflexivity).
  assert (S5 : 2 * (7286977268806824 / 4503599627370496 - ulp1) - 1 <= sqrt 5 <= 2 * (7286977268806824 / 4503599627370496 + ulp1) - 1).
  { unfold ulp1. split.
    - rewrite <- (sqrt_square (2 * (7286977268806824 / 4503599627370496 - / 9007199254740992) - 1)) by lra. apply sqrt_le_1_alt. lra.
    - rewrite <- (sqrt_square (2 * (7286977268806824 / 4503599627370496 + / 9007199254740992) - 1)) by lra. apply sqrt_le_1_alt. lra. }
  apply Rabs_le. unfold TAU, ulp1 in *. lra.
Qed.
Lemma fsin_apx : apx (fsin Bnum) SIN (2 * ulp1).
Proof.
  assert (E : B2FF 53 1024 (fsin Bnum) = F754_finite false 7800463371553962 (-53)) by (vm_cast_no_check (eq_refl (F754_finite false 7800463371553962 (-53)))).
  apply B2R_of in E as [Fx V]. split; [exact Fx|]. rewrite V. unfold F2R. cbn [Fnum Fexp cond_Zopp].
  replace (bpow radix2 (-53)) with (/ 9007199254740992) by (cbn; reflexivity).
  assert (S3 : 2 * (7800463371553962 / 9007199254740992 - ulp1) <= sqrt 3 <= 2 * (7800463371553962 / 9007199254740992 + ulp1)).
  { unfold ulp1. split.
    - rewrite <- (sqrt_square (2 * (7800463371553962 / 9007199254740992 - / 9007199254740992))) by lra. apply sqrt_le_1_alt. lra.
    - rewrite <- (sqrt_square (2 * (7800463371553962 / 9007199254740992 + / 9007199254740992))) by lra. apply sqrt_le_1_alt. lra. }
  apply Rabs_le. unfold SIN, ulp1 in *. lra.
Qed.

Lemma p53Z z : (Z.abs z <= 2 ^ 53)%Z -> Rabs (IZR z) <= 9007199254740992.
Proof. intros H. rewrite <- abs_IZR. change 9007199254740992 with (IZR (2^53)). apply IZR_le. exact H. Qed.
Lemma p500 : 9007199254740992 * 9007199254740992 <= bpow radix2 500.
Proof. rewrite p53, <- bpow_plus. apply bpow_le. lia. Qed.

(** (a + b k)/c computed from a constant within two half-ulps of k. *)
Lemma value_apx kf k a b c : apx kf k (2 * ulp1) -> Rabs k <= 162/100 -> (Z.abs a <= 2^53)%Z -> (Z.abs b <= 2^53)%Z -> (Z.abs c <= 2^53)%Z -> c <> 0%Z ->
  apx (fdiv Bnum (fadd Bnum (fZ Bnum a) (fmul Bnum (fZ Bnum b) kf)) (fZ Bnum c)) ((IZR a + IZR b * k) / IZR c) ((Rabs (IZR a) + 2 * Rabs (IZR b)) / (2251799813685248 * Rabs (IZR c))).
Proof.
  intros [Fk Hk] Bk Ha Hb Hc Nc.
  destruct (apx_Z a Ha) as [[Fa _] Va]. destruct (apx_Z b Hb) as [[Fb _] Vb]. destruct (apx_Z c Hc) as [[Fc _] Vc].
  apply p53Z in Ha as Ra. apply p53Z in Hb as Rb. apply p53Z in Hc as Rc.
  set (A := Rabs (IZR a)) in *. set (B := Rabs (IZR b)) in *. set (C := Rabs (IZR c)) in *.
  assert (A0 : 0 <= A) by apply Rabs_pos. assert (B0 : 0 <= B) by apply Rabs_pos.
  assert (C1 : 1 <= C) by (unfold C; rewrite <- abs_IZR; apply IZR_le; lia).
  pose proof eta_pos as E0. pose proof eta_lt as E1. pose proof eta_tiny as E2. pose proof p500 as P5.
  assert (U0 : 0 < ulp1 <= / 1000000000000000) by (unfold ulp1; lra).
  assert (Kf : Rabs (Bv kf) <= 17/10) by (pose proof (apx_abs kf k _ (conj Fk Hk)); lra).
  set (p := fmul Bnum (fZ Bnum b) kf).
  assert (Pb : Rabs (Bv (fZ Bnum b) * Bv kf) <= 17/10 * B) by (rewrite Rabs_mult, Vb; fold B; pose proof (Rabs_pos (Bv kf)); nra).
  destruct (bmult_err (fZ Bnum b) kf Fb Fk ltac:(lra)) as [[Fp Hp] Zp]. fold p in Fp, Hp, Zp. rewrite Vb in Hp, Zp, Pb.
  assert (Dp : Rabs (Bv p - IZR b * k) <= 37/10 * ulp1 * B + eta).
  { replace (Bv p - IZR b * k) with ((Bv p - IZR b * Bv kf) + IZR b * (Bv kf - k)) by ring. eapply Rle_trans; [apply Rabs_triang|]. rewrite (Rabs_mult (IZR b) (Bv kf - k)). fold B.
    assert (B * Rabs (Bv kf - k) <= B * (2 * ulp1)) by (apply Rmult_le_compat_l; assumption).
    assert (ulp1 * Rabs (IZR b * Bv kf) <= ulp1 * (17/10 * B)) by (apply Rmult_le_compat_l; lra). lra. }
  assert (Kb : Rabs (IZR b * k) <= 162/100 * B) by (rewrite Rabs_mult; fold B; pose proof (Rabs_pos k); nra).
  assert (Ap : Rabs (Bv p) <= 17/10 * B + eta).
  { replace (Bv p) with (IZR b * k + (Bv p - IZR b * k)) by ring. eapply Rle_trans; [apply Rabs_triang|]. assert (37/10 * ulp1 * B <= 8/100 * B) by (apply Rmult_le_compat_r; lra). lra. }
  set (s := fadd Bnum (fZ Bnum a) p).
  assert (Sp : Rabs (Bv (fZ Bnum a) + Bv p) <= A + 17/10 * B + eta) by (rewrite Va; eapply Rle_trans; [apply Rabs_triang|]; fold A; lra).
  destruct (bplus_err (fZ Bnum a) p Fa Fp ltac:(lra)) as [[Fs Hs] Zs]. fold s in Fs, Hs, Zs. rewrite Va in Hs, Zs, Sp.
  assert (Ds : Rabs (Bv s - (IZR a + IZR b * k)) <= ulp1 * A + 54/10 * ulp1 * B + 3 * eta).
  { replace (Bv s - (IZR a + IZR b * k)) with ((Bv s - (IZR a + Bv p)) + (Bv p - IZR b * k)) by ring. eapply Rle_trans; [apply Rabs_triang|].
    assert (ulp1 * Rabs (IZR a + Bv p) <= ulp1 * (A + 17/10 * B + eta)) by (apply Rmult_le_compat_l; lra).
    assert (ulp1 * eta <= 1 * eta) by (apply Rmult_le_compat_r; lra). lra. }
  assert (As : Rabs (Bv s) <= 1001/1000 * A + 17/10 * B + 3 * eta).
  { replace (Bv s) with ((IZR a + IZR b * k) + (Bv s - (IZR a + IZR b * k))) by ring. eapply Rle_trans; [apply Rabs_triang|].
    assert (Rabs (IZR a + IZR b * k) <= A + 162/100 * B) by (eapply Rle_trans; [apply Rabs_triang|]; fold A; lra).
    assert (ulp1 * A <= 1/1000 * A) by (apply Rmult_le_compat_r; lra). assert (54/10 * ulp1 * B <= 8/100 * B) by (apply Rmult_le_compat_r; lra). lra. }
  assert (Nc' : Bv (fZ Bnum c) <> 0) by (rewrite Vc; apply not_0_IZR; exact Nc).
  assert (Ic : 0 < / C <= 1) by (split; [apply Rinv_0_lt_compat; lra|rewrite <- Rinv_1; apply Rinv_le_contravar; lra]).
  assert (Ds' : Rabs (Bv s / Bv (fZ Bnum c)) = Rabs (Bv s) * / C) by (rewrite Vc; unfold Rdiv; rewrite Rabs_mult, Rabs_inv; reflexivity).
  destruct (bdiv_err s (fZ Bnum c) Fs Fc Nc') as [[Fq Hq] Zq].
  { rewrite Ds'. pose proof (Rabs_pos (Bv s)). apply Rle_trans with (Rabs (Bv s) * 1); [apply Rmult_le_compat_l; lra|]. lra. }
  split; [exact Fq|]. rewrite Ds', Vc in Hq. rewrite Vc in Zq.
  assert (Cc : IZR c <> 0) by (apply not_0_IZR; exact Nc).
  destruct (Z.eq_dec (Z.abs a + Z.abs b) 0) as [Zab|Zab].
  - assert (a = 0%Z) by lia. assert (b = 0%Z) by lia. subst a b. assert (Vp : Bv p = 0) by (apply Zp; ring). assert (Vs : Bv s = 0) by (apply Zs; rewrite Vp; ring).
    rewrite Zq by (rewrite Vs; field; exact Cc). replace (0 - (0 + 0 * k) / IZR c) with 0 by (field; exact Cc). rewrite Rabs_R0.
    apply Rmult_le_pos; [lra|]. left. apply Rinv_0_lt_compat. lra.
  - assert (M1 : 1 <= A + B) by (unfold A, B; rewrite <- !abs_IZR, <- plus_IZR; apply IZR_le; lia).
    set (q := fdiv Bnum s (fZ Bnum c)) in *. set (v := IZR a + IZR b * k) in *.
    replace (Bv q - v / IZR c) with ((Bv q - Bv s / IZR c) + (Bv s - v) / IZR c) by (field; exact Cc).
    eapply Rle_trans; [apply Rabs_triang|].
    assert (D1 : Rabs ((Bv s - v) / IZR c) = Rabs (Bv s - v) * / C) by (unfold Rdiv; rewrite Rabs_mult, Rabs_inv; reflexivity). rewrite D1.
    replace ((A + 2 * B) / (2251799813685248 * C)) with (4 * ulp1 * (A + 2 * B) * / C) by (unfold ulp1; field; lra).
    assert (Ee : eta <= eta * 9007199254740992 * / C).
    { replace eta with (eta * C * / C) at 1 by (field; lra). apply Rmult_le_compat_r; [lra|]. apply Rmult_le_compat_l; lra. }
    assert (H1 : ulp1 * (Rabs (Bv s) * / C) <= ulp1 * (1001 / 1000 * A + 17 / 10 * B + 3 * eta) * / C).
    { rewrite <- Rmult_assoc. apply Rmult_le_compat_r; [lra|]. apply Rmult_le_compat_l; lra. }
    assert (H2 : Rabs (Bv s - v) * / C <= (ulp1 * A + 54 / 10 * ulp1 * B + 3 * eta) * / C) by (apply Rmult_le_compat_r; lra).
    apply Rle_trans with ((ulp1 * (1001 / 1000 * A + 17 / 10 * B + 3 * eta) + eta * 9007199254740992 + (ulp1 * A + 54 / 10 * ulp1 * B + 3 * eta)) * / C); [lra|].
    apply Rmult_le_compat_r; [lra|].
    assert (ulp1 * eta <= 1 * eta) by (apply Rmult_le_compat_r; lra).
    assert (ulp1 * 1 <= ulp1 * (A + B)) by (apply Rmult_le_compat_l; lra).
    assert (0 <= ulp1 * A) by (apply Rmult_le_pos; lra). assert (0 <= ulp1 * B) by (apply Rmult_le_pos; lra).
    lra.
Qed.
Lemma TAU_162 : Rabs TAU <= 162/100.
Proof.
  assert (sqrt 5 <= 224/100) by (rewrite <- (sqrt_square (224/100)) by lra; apply sqrt_le_1_alt; lra).
  pose proof (sqrt_pos 5). apply Rabs_le. unfold TAU. lra.
Qed.
Lemma SIN_162 : Rabs SIN <= 162/100.
Proof.
  assert (sqrt 3 <= 2) by (rewrite <- (sqrt_square 2) by lra; apply sqrt_le_1_alt; lra).
  pose proof (sqrt_pos 3). apply Rabs_le. unfold SIN. lra.
Qed.
Lemma numeric_value_apx a b c : (Z.abs a <= 2^53)%Z -> (Z.abs b <= 2^53)%Z -> (Z.abs c <= 2^53)%Z -> c <> 0%Z ->
  apx (numeric_value Bnum (T a b c)) (val TAU (T a b c)) ((Rabs (IZR a) + 2 * Rabs (IZR b)) / (2251799813685248 * Rabs (IZR c))).
Proof. intros. apply (value_apx (ftau Bnum) TAU a b c); auto using ftau_apx, TAU_162. Qed.
Lemma dnumeric_value_apx a b c : (Z.abs a <= 2^53)%Z -> (Z.abs b <= 2^53)%Z -> (Z.abs c <= 2^53)%Z -> c <> 0%Z ->
  apx (dnumeric_value Bnum (T a b c)) (val SIN (T a b c)) ((Rabs (IZR a) + 2 * Rabs (IZR b)) / (2251799813685248 * Rabs (IZR c))).
Proof. intros. apply (value_apx (fsin Bnum) SIN a b c); auto using fsin_apx, SIN_162. Qed.
End Lib.
