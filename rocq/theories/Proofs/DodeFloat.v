(** Rounding errors of dode2/numericalc.py in binary64. *)
From Coq Require Import Reals List ZArith Bool Lia Lra Psatz.
From Flocq Require Import Core IEEE754.BinarySingleNaN IEEE754.Binary IEEE754.Bits.
From Verif Require Import Base.Res Model.Tau Model.Arr Model.Num Model.IcoNumeric Model.DodeNumeric Model.DodeIntersect
  Spec.LinAlg Spec.Value Spec.RVec Spec.Shape Spec.IcoSpec Spec.DodeSpec Spec.Space Spec.Plane Spec.Float
  Proofs.ResLemmas Proofs.RVecLemmas Proofs.Irrational Proofs.NumLemmas Proofs.RoundLemmas Proofs.FloatCalc Proofs.FloatGeom Proofs.PlaneLemmas.
Import ListNotations.
Local Open Scope R_scope.
Local Notation Bnum := Bmath.

Section Lib.
Context {la : linalg} {LA : linalg_ok la}.

Lemma dcoef_apx A x : coef A x -> G k0 A (dnumeric_value Bnum x) (val SIN x) 1 /\ Rabs (val SIN x) <= A.
Proof.
  destruct x as [a b c]. intros (Nc & Ha & Hb & Hc & L). assert (C : 0 < Rabs (IZR c)) by (apply Rabs_pos_lt, not_0_IZR; exact Nc).
  destruct (dnumeric_value_apx a b c Ha Hb Hc Nc) as [Fx Hx]. split.
  - split; [exact Fx|]. eapply Rle_trans; [exact Hx|]. rewrite Rmult_1_l. unfold k0.
    apply (Rmult_le_reg_r (2251799813685248 * Rabs (IZR c))); [lra|]. unfold Rdiv. rewrite Rmult_assoc, Rinv_l by lra. lra.
  - unfold val. cbn [ta tb tc]. unfold Rdiv. rewrite Rabs_mult, Rabs_inv. apply (Rmult_le_reg_r (Rabs (IZR c))); [lra|]. rewrite Rmult_assoc, Rinv_l by lra. rewrite Rmult_1_r.
    eapply Rle_trans; [|exact L]. eapply Rle_trans; [apply Rabs_triang|]. rewrite (Rabs_mult (IZR b) SIN). pose proof SIN_162. pose proof (Rabs_pos (IZR b)). nra.
Qed.
Lemma sin_G : G k0 1 (fsin Bnum) SIN (1/2).
Proof. destruct fsin_apx as [Fx Hx]. split; [exact Fx|]. unfold ulp1, k0 in *. lra. Qed.
Lemma half_G : G k0 1 (half Bnum) (1/2) (1/2).
Proof.
  unfold half, flit. destruct (apx_Z 1) as [[Fn _] Vn]; [lia|]. assert (S : size k0 1) by (apply size_k0; lra).
  apply (G_divZ k0 (1/4) k0_ok k0_u q0_ok 1 _ 1 0 1 2 (1/2) S); try lra; try lia.
  - split; [exact Fn|]. rewrite Vn. replace (1 - 1) with 0 by ring. rewrite Rabs_R0. lra.
  - rewrite Rabs_R1. lra.
Qed.
Lemma SIN_1 : Rabs SIN <= 1.
Proof.
  assert (sqrt 3 <= 2) by (rewrite <- (sqrt_square 2) by lra; apply sqrt_le_1_alt; lra).
  pose proof (sqrt_pos 3). apply Rabs_le. unfold SIN. lra.
Qed.

Lemma dinternal_B A v : 1 <= A <= 1000000 -> coefs A v -> exists x, dinternal Bnum v = Ok x /\ P (10 * A / 2251799813685248) x (dp v).
Proof.
  intros HA [L C]. destruct v as [|v0 [|v1 [|v2 [|v3 [|v4 [|v5 [|]]]]]]]; try discriminate L. clear L.
  inversion C as [|? ? C0 X0]; subst. inversion X0 as [|? ? C1 X1]; subst. inversion X1 as [|? ? C2 X2]; subst. inversion X2 as [|? ? C3 X3]; subst. inversion X3 as [|? ? C4 X4]; subst. inversion X4 as [|? ? C5 _]; subst.
  clear C X0 X1 X2 X3 X4. apply dcoef_apx in C0 as [G0 B0], C1 as [G1 B1], C2 as [G2 B2], C3 as [G3 B3], C4 as [G4 B4], C5 as [G5 B5].
  unfold dinternal, dnumerical_vector. cbn [map]. unfold dprojection3_numerical. cbn [get nth_error bind]. eexists. split; [reflexivity|].
  assert (Epp : dp [v0; v1; v2; v3; v4; v5] = (- SIN * val SIN v0 + val SIN v1 - 1/2 * val SIN v3, - (1/2) * val SIN v0 + val SIN v2 - SIN * val SIN v3, val SIN v5)).
  { unfold dp, dppoint, vals. cbn [map]. generalize (val SIN v0) (val SIN v1) (val SIN v2) (val SIN v3) (val SIN v4) (val SIN v5). intros.
    unfold dperp, matvec, dperp_rows. cbn. unfold dot; cbn. apply f_equal2; [apply f_equal2|]; field. }
  rewrite Epp. assert (S : size k0 A) by (apply size_k0; lra). assert (S1 : size k0 (1 * A)) by (rewrite Rmult_1_l; exact S).
  assert (Mu : forall x y r t, G k0 1 x r (1/2) -> Rabs r <= 1 -> G k0 A y t 1 -> Rabs t <= A -> G k0 A (fmul Bnum x y) (r * t) (18/10) /\ Rabs (r * t) <= A).
  { intros x y r t Gx Bx Gy By. assert (Rabs (r * t) <= A). { rewrite Rabs_mult. pose proof (Rabs_pos r). pose proof (Rabs_pos t). nra. } split; [|assumption].
    assert (M : G k0 (1 * A) (fmul Bnum x y) (r * t) (18/10)).
    { apply (G_mul k0 (1/4) k0_ok k0_u q0_ok 1 A _ _ _ _ (1/2) 1 1 1 (18/10) S1); try lra; assumption. }
    rewrite Rmult_1_l in M. exact M. }
  assert (On : forall x1 x2 x3 r1 r2 r3, G k0 A x1 r1 (18/10) /\ Rabs r1 <= A -> G k0 A x2 r2 1 -> Rabs r2 <= A -> G k0 A x3 r3 (18/10) /\ Rabs r3 <= A ->
    apx (fsub Bnum (fadd Bnum x1 x2) x3) (r1 + r2 - r3) (10 * A / 2251799813685248)).
  { clear - HA S. intros x1 x2 x3 r1 r2 r3 [G1 B1] G2 B2 [G3 B3].
    assert (B4 : Rabs (r1 + r2) <= 2 * A) by (eapply Rle_trans; [apply (tri2 _ _ _ _ B1 B2)|lra]).
    assert (M : G k0 A (fadd Bnum x1 x2) (r1 + r2) (35/10)).
    { apply (G_add k0 (1/4) k0_ok k0_u q0_ok A _ _ _ _ (18/10) 1 2 _ S); try assumption; lra. }
    destruct (G_sub k0 (1/4) k0_ok k0_u q0_ok A _ _ _ _ (35/10) (18/10) 3 (98/10) S ltac:(lra) ltac:(lra) M G3) as [Fx Hx]; [eapply Rle_trans; [apply (tri2m _ _ _ _ B4 B3)|lra]|lra|lra|].
    split; [exact Fx|]. eapply Rle_trans; [exact Hx|]. unfold k0. lra. }
  pose proof SIN_1 as SN. assert (HF : Rabs (1/2) <= 1) by (rewrite Rabs_right; lra).
  split; [|split].
  - apply On; [apply Mu; try assumption; [apply G_neg, sin_G|rewrite Rabs_Ropp; exact SN]|assumption|assumption|apply Mu; try assumption; exact half_G].
  - apply On; [apply Mu; try assumption; [apply G_neg, half_G|rewrite Rabs_Ropp; exact HF]|assumption|assumption|apply Mu; try assumption; exact sin_G].
  - destruct G5 as [F5 H5]. split; [exact F5|]. eapply Rle_trans; [exact H5|]. unfold k0. lra.
Qed.
Lemma dinternals_B A vs : 1 <= A <= 1000000 -> Forall (coefs A) vs -> exists xs, dinternals Bnum vs = Ok xs /\ Forall2 (P (10 * A / 2251799813685248)) xs (map dp vs).
Proof.
  intros HA H. unfold dinternals. induction H as [|v vs Hv _ (xs & E & IH)]; cbn [mapM map]; [exists []; split; [reflexivity|constructor]|].
  destruct (dinternal_B A v HA Hv) as (x & Ex & Px). rewrite Ex. cbn [bind]. rewrite E. cbn [bind]. exists (x :: xs). split; [reflexivity|constructor; assumption].
Qed.
End Lib.
