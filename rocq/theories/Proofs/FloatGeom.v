(** Rounding errors of the geometric predicates of ico2/numericalc.py in binary64. *)
From Coq Require Import Reals List ZArith Bool Lia Lra Psatz.
From Flocq Require Import Core IEEE754.BinarySingleNaN IEEE754.Binary IEEE754.Bits.
From Verif Require Import Base.Res Model.Tau Model.Arr Model.Num Model.IcoNumeric Spec.LinAlg Spec.Value Spec.RVec Spec.Shape Spec.IcoSpec Spec.Space Spec.Float
  Proofs.ResLemmas Proofs.RVecLemmas Proofs.Irrational Proofs.NumLemmas Proofs.RoundLemmas Proofs.FloatCalc.
Import ListNotations.
Local Open Scope R_scope.
Local Notation Bnum := Bmath.

Section Lib.
Context {la : linalg} {LA : linalg_ok la}.

(** Each component finite and within E. *)
Definition P (E : R) (x : Num.pt Bnum) (p : R3) : Prop :=
  let '(x0, x1, x2) := x in let '(p0, p1, p2) := p in apx x0 p0 E /\ apx x1 p1 E /\ apx x2 p2 E.

Definition k0 : R := / 2251799813685248.
Lemma k0_ok : 0 < k0 <= 1/1048576. Proof. unfold k0. lra. Qed.
Lemma k0_u : ulp1 <= 1/4 * k0. Proof. unfold ulp1, k0. lra. Qed.
Lemma q0_ok : 1/100 <= 1/4 <= 1. Proof. lra. Qed.
Lemma big_1 : 1000000000000 <= big.
Proof. unfold big. apply Rle_trans with (bpow radix2 40); [cbn; lra|apply bpow_le; lia]. Qed.
Lemma size_k0 A : 1/1000 <= A <= 1000000000000 -> size k0 A.
Proof. intros H. pose proof eta_lt. pose proof eta_pos. pose proof big_1. unfold size, k0. split; [lra|]. split; lra. Qed.

Lemma coef_apx A x : coef A x -> G k0 A (numeric_value Bnum x) (val TAU x) 1 /\ Rabs (val TAU x) <= A.
Proof.
  destruct x as [a b c]. intros (Nc & Ha & Hb & Hc & L). assert (C : 0 < Rabs (IZR c)) by (apply Rabs_pos_lt, not_0_IZR; exact Nc).
  destruct (numeric_value_apx a b c Ha Hb Hc Nc) as [Fx Hx]. split.
  - split; [exact Fx|]. eapply Rle_trans; [exact Hx|]. rewrite Rmult_1_l. unfold k0.
    apply (Rmult_le_reg_r (2251799813685248 * Rabs (IZR c))); [lra|]. unfold Rdiv. rewrite Rmult_assoc, Rinv_l by lra. lra.
  - unfold val. cbn [ta tb tc]. unfold Rdiv. rewrite Rabs_mult, Rabs_inv. apply (Rmult_le_reg_r (Rabs (IZR c))); [lra|]. rewrite Rmult_assoc, Rinv_l by lra. rewrite Rmult_1_r.
    eapply Rle_trans; [|exact L]. eapply Rle_trans; [apply Rabs_triang|]. rewrite (Rabs_mult (IZR b) TAU). pose proof TAU_162. pose proof (Rabs_pos (IZR b)). nra.
Qed.
Lemma tau_G : G k0 1 (ftau Bnum) TAU (1/2).
Proof. destruct ftau_apx as [Fx Hx]. split; [exact Fx|]. unfold ulp1, k0 in *. lra. Qed.

Lemma tri2 x y a b : Rabs x <= a -> Rabs y <= b -> Rabs (x + y) <= a + b.
Proof. intros. eapply Rle_trans; [apply Rabs_triang|]. lra. Qed.
Lemma tri2m x y a b : Rabs x <= a -> Rabs y <= b -> Rabs (x - y) <= a + b.
Proof. intros. unfold Rminus. apply tri2; [assumption|]. rewrite Rabs_Ropp. assumption. Qed.

Lemma internal_B A v : 1 <= A <= 1000000 -> coefs A v -> exists x, internal Bnum v = Ok x /\ P (10 * A / 2251799813685248) x (pp v).
Proof.
  intros HA [L C]. destruct v as [|v0 [|v1 [|v2 [|v3 [|v4 [|v5 [|]]]]]]]; try discriminate L. clear L.
  inversion C as [|? ? C0 X0]; subst. inversion X0 as [|? ? C1 X1]; subst. inversion X1 as [|? ? C2 X2]; subst. inversion X2 as [|? ? C3 X3]; subst. inversion X3 as [|? ? C4 X4]; subst. inversion X4 as [|? ? C5 _]; subst.
  clear C X0 X1 X2 X3 X4. apply coef_apx in C0 as [G0 B0], C1 as [G1 B1], C2 as [G2 B2], C3 as [G3 B3], C4 as [G4 B4], C5 as [G5 B5].
  unfold internal, numerical_vector. cbn [map]. unfold projection3_numerical. cbn [get nth_error bind]. eexists. split; [reflexivity|].
  assert (Epp : pp [v0; v1; v2; v3; v4; v5] = (- (val TAU v1 + val TAU v2) + TAU * (val TAU v0 - val TAU v4), - (val TAU v0 + val TAU v4) + TAU * (val TAU v3 + val TAU v5), (val TAU v3 - val TAU v5) + TAU * (val TAU v1 - val TAU v2))).
  { unfold pp, vals. cbn [map]. generalize (val TAU v0) (val TAU v1) (val TAU v2) (val TAU v3) (val TAU v4) (val TAU v5). intros.
    unfold perp, matvec, perp_rows. cbn. unfold dot; cbn. apply f_equal2; [apply f_equal2|]; ring. }
  rewrite Epp. assert (S : size k0 A) by (apply size_k0; lra).
  assert (Ad : forall x y r t, G k0 A x r 1 -> Rabs r <= A -> G k0 A y t 1 -> Rabs t <= A -> G k0 A (fadd Bnum x y) (r + t) (5/2+2/1000) /\ Rabs (r + t) <= 2 * A).
  { intros x y r t Gx Bx Gy By. assert (Rabs (r + t) <= 2 * A) by (eapply Rle_trans; [apply (tri2 _ _ _ _ Bx By)|lra]). split; [|assumption].
    apply (G_add k0 (1/4) k0_ok k0_u q0_ok A _ _ _ _ 1 1 2 _ S); try assumption; lra. }
  assert (Sb : forall x y r t, G k0 A x r 1 -> Rabs r <= A -> G k0 A y t 1 -> Rabs t <= A -> G k0 A (fsub Bnum x y) (r - t) (5/2+2/1000) /\ Rabs (r - t) <= 2 * A).
  { intros x y r t Gx Bx Gy By. assert (Rabs (r - t) <= 2 * A) by (eapply Rle_trans; [apply (tri2m _ _ _ _ Bx By)|lra]). split; [|assumption].
    apply (G_sub k0 (1/4) k0_ok k0_u q0_ok A _ _ _ _ 1 1 2 _ S); try assumption; lra. }
  assert (On : forall x1 x2 r1 r2, G k0 A x1 r1 (5/2+2/1000) /\ Rabs r1 <= 2 * A -> G k0 A x2 r2 (5/2+2/1000) /\ Rabs r2 <= 2 * A -> apx (fadd Bnum x1 (fmul Bnum (ftau Bnum) x2)) (r1 + TAU * r2) (10 * A / 2251799813685248)).
  { clear - HA S. intros x1 x2 r1 r2 [G1 B1] [G2 B2]. pose proof TAU_162 as T6. assert (S1 : size k0 (1 * A)) by (rewrite Rmult_1_l; exact S).
    assert (M : G k0 (1 * A) (fmul Bnum (ftau Bnum) x2) (TAU * r2) (59/10)).
    { apply (G_mul k0 (1/4) k0_ok k0_u q0_ok 1 A _ _ _ _ (1/2) (5/2+2/1000) (162/100) 2 (59/10) S1); try lra; [exact tau_G|exact G2]. }
    rewrite Rmult_1_l in M.
    assert (B3 : Rabs (TAU * r2) <= 324/100 * A). { rewrite Rabs_mult. pose proof (Rabs_pos TAU). pose proof (Rabs_pos r2). nra. }
    destruct (G_add k0 (1/4) k0_ok k0_u q0_ok A _ _ _ _ (5/2+2/1000) (59/10) (524/100) (98/10) S ltac:(lra) ltac:(lra) G1 M) as [Fx Hx]; [eapply Rle_trans; [apply (tri2 _ _ _ _ B1 B3)|lra]|lra|lra|].
    split; [exact Fx|]. eapply Rle_trans; [exact Hx|]. unfold k0. lra. }
  assert (Ng : forall x r, G k0 A x r (5/2+2/1000) /\ Rabs r <= 2 * A -> G k0 A (fneg Bnum x) (- r) (5/2+2/1000) /\ Rabs (- r) <= 2 * A).
  { intros x r [H1 H2]. split; [apply G_neg; exact H1|rewrite Rabs_Ropp; exact H2]. }
  split; [|split].
  - apply On; [apply Ng, Ad; assumption|apply Sb; assumption].
  - apply On; [apply Ng, Ad; assumption|apply Ad; assumption].
  - apply On; apply Sb; assumption.
Qed.
Lemma internals_B A vs : 1 <= A <= 1000000 -> Forall (coefs A) vs -> exists xs, internals Bnum vs = Ok xs /\ Forall2 (P (10 * A / 2251799813685248)) xs (map pp vs).
Proof.
  intros HA H. unfold internals. induction H as [|v vs Hv _ (xs & E & IH)]; cbn [mapM map]; [exists []; split; [reflexivity|constructor]|].
  destruct (internal_B A v HA Hv) as (x & Ex & Px). rewrite Ex. cbn [bind]. rewrite E. cbn [bind]. exists (x :: xs). split; [reflexivity|constructor; assumption].
Qed.

(** Products of differences. *)
Section Figure.
Variables k D E : R.
Hypothesis Hk : 0 < k <= 1/1048576.
Hypothesis Hu : 40 * ulp1 <= k.
Hypothesis HE : E <= k * D.
Hypothesis HD : 1/1000 <= D <= 1000.
Let q1 : 1/100 <= 1 <= 1. Proof. lra. Qed.
Let u1 : ulp1 <= 1 * k. Proof. unfold ulp1 in *. lra. Qed.
Let s1 := D. Let s2 := D * D. Let s3 := D * (D * D).
Lemma D_sizes : size k s1 /\ size k s2 /\ size k s3.
Proof.
  pose proof eta_lt. pose proof eta_pos. pose proof big_1. unfold ulp1 in Hu.
  assert (1/1000000 <= s2 <= 1000000) by (unfold s2; nra). assert (1/1000000000 <= s3 <= 1000000000) by (unfold s3, s2 in *; nra).
  assert (K : forall s, 1/1000000000 <= s <= 1000000000 -> size k s).
  { intros s Hs. unfold size. split; [lra|]. split; [|lra]. assert (/ 9007199254740992 * (1/1000000000) <= k * s) by (apply Rmult_le_compat; lra). lra. }
  unfold s1. split; [|split]; apply K; lra.
Qed.
Lemma S1 : size k s1. Proof. apply D_sizes. Qed.
Lemma S2 : size k s2. Proof. apply D_sizes. Qed.
Lemma S3 : size k s3. Proof. apply D_sizes. Qed.

Definition V (s c : R) (x : Num.pt Bnum) (p : R3) : Prop :=
  let '(x0, x1, x2) := x in let '(p0, p1, p2) := p in G k s x0 p0 c /\ G k s x1 p1 c /\ G k s x2 p2 c.
Definition bnd (b : R) (p : R3) : Prop := let '(p0, p1, p2) := p in Rabs p0 <= b /\ Rabs p1 <= b /\ Rabs p2 <= b.

Lemma G_diff x y r t : apx x r E -> apx y t E -> Rabs (r - t) <= D -> G k s1 (fsub Bnum x y) (r - t) (31/10).
Proof.
  intros [Fx Hx] [Fy Hy] R. apply (G_sub k 1 Hk u1 q1 s1 _ _ _ _ 1 1 1 _ S1); try lra; unfold s1; try lra; split; try assumption; lra.
Qed.
Lemma V_diff x y p r : P E x p -> P E y r -> apart_le D p r -> V s1 (31/10) (psub Bnum x y) (sub3 p r) /\ bnd D (sub3 p r).
Proof.
  destruct x as [[x0 x1] x2], y as [[y0 y1] y2], p as [[p0 p1] p2], r as [[r0 r1] r2]. unfold P, apart_le. cbn [sub3 psub]. intros (X0 & X1 & X2) (Y0 & Y1 & Y2) (A0 & A1 & A2).
  split; [split; [|split]; apply G_diff; assumption|]. cbn [bnd]. auto.
Qed.
Lemma G_prod2 x y r t : G k s1 x r (31/10) -> G k s1 y t (31/10) -> Rabs r <= D -> Rabs t <= D -> G k s2 (fmul Bnum x y) (r * t) (73/10) /\ Rabs (r * t) <= s2.
Proof.
  intros Gx Gy R T. split.
  - apply (G_mul k 1 Hk u1 q1 s1 s1 _ _ _ _ (31/10) (31/10) 1 1 _ S2); try assumption; unfold s1; lra.
  - rewrite Rabs_mult. unfold s2. apply Rmult_le_compat; try apply Rabs_pos; assumption.
Qed.
Lemma G_minor x y z w r t a b : G k s1 x r (31/10) -> G k s1 y t (31/10) -> G k s1 z a (31/10) -> G k s1 w b (31/10) -> Rabs r <= D -> Rabs t <= D -> Rabs a <= D -> Rabs b <= D ->
  G k s2 (fsub Bnum (fmul Bnum x y) (fmul Bnum z w)) (r * t - a * b) 17 /\ Rabs (r * t - a * b) <= 2 * s2.
Proof.
  intros X Y Z W R T A B. destruct (G_prod2 x y r t X Y R T) as [G1 B1]. destruct (G_prod2 z w a b Z W A B) as [G2 B2].
  assert (Bd : Rabs (r * t - a * b) <= 2 * s2) by (eapply Rle_trans; [apply (tri2m _ _ _ _ B1 B2)|lra]). split; [|exact Bd].
  apply (G_sub k 1 Hk u1 q1 s2 _ _ _ _ (73/10) (73/10) 2 _ S2); try assumption; lra.
Qed.
Lemma V_cross x y p r : V s1 (31/10) x p -> bnd D p -> V s1 (31/10) y r -> bnd D r -> V s2 17 (pcross Bnum x y) (cross3 p r) /\ bnd (2 * s2) (cross3 p r).
Proof.
  destruct x as [[x0 x1] x2], y as [[y0 y1] y2], p as [[p0 p1] p2], r as [[r0 r1] r2]. cbn [V bnd pcross cross3]. intros (X0 & X1 & X2) (A0 & A1 & A2) (Y0 & Y1 & Y2) (B0 & B1 & B2).
  destruct (G_minor x1 y2 x2 y1 p1 r2 p2 r1 X1 Y2 X2 Y1 A1 B2 A2 B1), (G_minor x2 y0 x0 y2 p2 r0 p0 r2 X2 Y0 X0 Y2 A2 B0 A0 B2), (G_minor x0 y1 x1 y0 p0 r1 p1 r0 X0 Y1 X1 Y0 A0 B1 A1 B0).
  split; (split; [|split]); assumption.
Qed.
(** np.dot of two vectors known up to rounding errors. *)
Lemma p200 : 1000000000000 <= bpow radix2 200.
Proof. apply Rle_trans with (bpow radix2 40); [cbn; lra|apply bpow_le; lia]. Qed.
Lemma tiny s : 1/1000000000 <= s -> bpow radix2 (-1000) <= 1/1000 * (k * s).
Proof.
  intros Hs. unfold ulp1 in Hu. assert (/ 9007199254740992 * (1/1000000000) <= k * s) by (apply Rmult_le_compat; lra).
  assert (bpow radix2 (-1000) <= bpow radix2 (-100)) by (apply bpow_le; lia). assert (bpow radix2 (-100) <= / 1000000000000000000000000000000) by (cbn; lra). lra.
Qed.
Lemma u53 : bpow radix2 (-53) = ulp1. Proof. unfold ulp1. cbn. reflexivity. Qed.
Lemma prod_err s s' X Y p r c c' B B' : 0 < s -> 0 < s' -> 0 <= c -> 0 <= c' -> Rabs (X - p) <= c * (k * s) -> Rabs (Y - r) <= c' * (k * s') -> Rabs p <= B * s -> Rabs r <= B' * s' ->
  Rabs (X * Y - p * r) <= (c * (B' + c' / 1048576) + B * c') * (k * (s * s')) /\ Rabs (X * Y) <= (B + c / 1048576) * (B' + c' / 1048576) * (s * s').
Proof.
  intros S S' C C' Hx Hy Bp Br.
  assert (W : forall s c (X p B : R), 0 < s -> 0 <= c -> Rabs (X - p) <= c * (k * s) -> Rabs p <= B * s -> Rabs X <= (B + c / 1048576) * s).
  { clear - Hk. intros s c X p B S C H R. replace X with (p + (X - p)) by ring. eapply Rle_trans; [apply Rabs_triang|].
    assert (c * (k * s) <= c * (1/1048576 * s)) by (apply Rmult_le_compat_l; [lra|apply Rmult_le_compat_r; lra]). lra. }
  pose proof (W _ _ _ _ _ S C Hx Bp) as Ax. pose proof (W _ _ _ _ _ S' C' Hy Br) as Ay. split.
  - replace (X * Y - p * r) with ((X - p) * Y + p * (Y - r)) by ring. eapply Rle_trans; [apply Rabs_triang|]. rewrite !Rabs_mult.
    assert (Rabs (X - p) * Rabs Y <= (c * (k * s)) * ((B' + c' / 1048576) * s')) by (apply Rmult_le_compat; try apply Rabs_pos; assumption).
    assert (Rabs p * Rabs (Y - r) <= (B * s) * (c' * (k * s'))) by (apply Rmult_le_compat; try apply Rabs_pos; assumption). lra.
  - rewrite Rabs_mult. replace ((B + c / 1048576) * (B' + c' / 1048576) * (s * s')) with ((B + c / 1048576) * s * ((B' + c' / 1048576) * s')) by ring. apply Rmult_le_compat; try apply Rabs_pos; assumption.
Qed.
Lemma G_in s x p c B M : 0 < s -> 0 <= c -> G k s x p c -> Rabs p <= B * s -> (B + c / 1048576) * s <= M -> fin_le M x.
Proof.
  intros S C Gx Bp L. split; [apply Gx|]. eapply Rle_trans; [|exact L]. exact (G_abs_le k Hk s x p c B S C Gx Bp).
Qed.
Lemma sum3_le a b c d x y z : Rabs x <= a -> Rabs y <= b -> Rabs z <= c -> a + b + c <= d -> Rabs (x + y + z) <= d.
Proof. intros. pose proof (Rabs_triang (x + y) z). pose proof (Rabs_triang x y). lra. Qed.
Lemma G_dot_gen s s' x y p r c c' B B' c'' : 1/1000000 <= s <= 1000000 -> 1/1000000 <= s' <= 1000000 -> 1/1000000000 <= s * s' -> 0 <= c <= 1000 -> 0 <= c' <= 1000 -> 0 <= B <= 1000 -> 0 <= B' <= 1000 ->
  V s c x p -> bnd (B * s) p -> V s' c' y r -> bnd (B' * s') r ->
  3 * (c * (B' + c' / 1048576) + B * c') + 3/8 * ((B + c / 1048576) * (B' + c' / 1048576)) + 1/1000 <= c'' -> G k (s * s') (pdot Bnum x y) (dot3 p r) c''.
Proof.
  destruct x as [[x0 x1] x2], y as [[y0 y1] y2], p as [[p0 p1] p2], r as [[r0 r1] r2]. cbn [V bnd]. intros Hs Hs' Hss Hc Hc' HB HB' (X0 & X1 & X2) (A0 & A1 & A2) (Y0 & Y1 & Y2) (B0 & B1 & B2) L.
  pose proof p200 as P2. pose proof (tiny _ Hss) as Ti.
  assert (M1 : (B + c / 1048576) * s <= bpow radix2 200) by (apply Rle_trans with (2000 * 1000000); [apply Rmult_le_compat; lra|lra]).
  assert (M2 : (B' + c' / 1048576) * s' <= bpow radix2 200) by (apply Rle_trans with (2000 * 1000000); [apply Rmult_le_compat; lra|lra]).
  assert (Rx : row_le (bpow radix2 200) (x0, x1, x2)) by (split; [|split]; eapply G_in; eauto; lra).
  assert (Ry : row_le (bpow radix2 200) (y0, y1, y2)) by (split; [|split]; eapply G_in; eauto; lra).
  destruct (proj1 LA _ _ Rx Ry) as (Fd & Hd & _). cbn [val3 abs3 dot3] in Hd. rewrite u53 in Hd.
  assert (S : 0 < s) by lra. assert (S' : 0 < s') by lra. assert (C : 0 <= c) by lra. assert (C' : 0 <= c') by lra.
  destruct (prod_err s s' _ _ _ _ c c' B B' S S' C C' (proj2 X0) (proj2 Y0) A0 B0) as [E0 Q0]. destruct (prod_err s s' _ _ _ _ c c' B B' S S' C C' (proj2 X1) (proj2 Y1) A1 B1) as [E1 Q1]. destruct (prod_err s s' _ _ _ _ c c' B B' S S' C C' (proj2 X2) (proj2 Y2) A2 B2) as [E2 Q2].
  split; [exact Fd|]. match type of Hd with Rabs (Bv ?t - _) <= _ => change (pdot Bnum (x0, x1, x2) (y0, y1, y2)) with t; set (d := t) in * end. cbn [dot3]. rewrite <- !Rabs_mult in Hd.
  set (m := c * (B' + c' / 1048576) + B * c') in *. set (n := (B + c / 1048576) * (B' + c' / 1048576)) in *.
  assert (U : 5 * ulp1 * (Rabs (Bv x0 * Bv y0) + Rabs (Bv x1 * Bv y1) + Rabs (Bv x2 * Bv y2)) <= (k * 1/8) * (3 * n * (s * s'))).
  { apply Rmult_le_compat; [unfold ulp1; lra|pose proof (Rabs_pos (Bv x0 * Bv y0)); pose proof (Rabs_pos (Bv x1 * Bv y1)); pose proof (Rabs_pos (Bv x2 * Bv y2)); lra|lra|lra]. }
  replace (Bv d - (p0 * r0 + p1 * r1 + p2 * r2)) with ((Bv d - (Bv x0 * Bv y0 + Bv x1 * Bv y1 + Bv x2 * Bv y2)) + ((Bv x0 * Bv y0 - p0 * r0) + (Bv x1 * Bv y1 - p1 * r1) + (Bv x2 * Bv y2 - p2 * r2))) by ring.
  eapply Rle_trans; [apply Rabs_triang|].
  pose proof (sum3_le _ _ _ _ _ _ _ E0 E1 E2 (Rle_refl _)) as T3.
  assert (KS : 0 < k * (s * s')) by (apply Rmult_lt_0_compat; lra).
  apply Rle_trans with ((3 * m + 3/8 * n + 1/1000) * (k * (s * s'))); [lra|apply Rmult_le_compat_r; lra].
Qed.
Lemma s_ok : 1/1000000 <= s1 <= 1000000 /\ 1/1000000 <= s2 <= 1000000 /\ 1/1000000000 <= s3.
Proof. assert (1/1000000 <= s2 <= 1000000) by (unfold s2; nra). unfold s1, s3 in *. unfold s2 in *. repeat split; try lra. nra. Qed.
Lemma dot3_le p r : bnd D p -> bnd (2 * s2) r -> Rabs (dot3 p r) <= 6 * s3.
Proof.
  destruct p as [[p0 p1] p2], r as [[r0 r1] r2]. cbn [bnd dot3]. intros (A0 & A1 & A2) (B0 & B1 & B2).
  assert (Q : forall x y, Rabs x <= D -> Rabs y <= 2 * s2 -> Rabs (x * y) <= 2 * s3).
  { intros x y Hx Hy. rewrite Rabs_mult. unfold s3. replace (2 * (D * (D * D))) with (D * (2 * (D * D))) by ring. apply Rmult_le_compat; try apply Rabs_pos; assumption. }
  eapply sum3_le; [apply Q; eassumption|apply Q; eassumption|apply Q; eassumption|lra].
Qed.
(** np.dot of a vector of products and a vector of differences, either way round. *)
Lemma G_dot x y p r : V s1 (31/10) x p -> bnd D p -> V s2 17 y r -> bnd (2 * s2) r -> G k s3 (pdot Bnum x y) (dot3 p r) 87 /\ Rabs (dot3 p r) <= 6 * s3.
Proof.
  intros X A Y B. split; [|apply dot3_le; assumption]. destruct s_ok as (K1 & K2 & K3).
  apply (G_dot_gen s1 s2 x y p r (31/10) 17 1 2 87); try assumption; try lra. unfold s1. rewrite Rmult_1_l. exact A.
Qed.
Lemma G_dot' x y p r : V s1 (31/10) x p -> bnd D p -> V s2 17 y r -> bnd (2 * s2) r -> G k s3 (pdot Bnum y x) (dot3 r p) 87 /\ Rabs (dot3 r p) <= 6 * s3.
Proof.
  intros X A Y B. assert (Ed : dot3 r p = dot3 p r) by (destruct p as [[? ?] ?], r as [[? ?] ?]; cbn; ring). rewrite Ed. split; [|apply dot3_le; assumption]. rewrite <- Ed. destruct s_ok as (K1 & K2 & K3).
  replace s3 with (s2 * s1) in K3 |- * by (unfold s1, s2, s3; ring).
  apply (G_dot_gen s2 s1 y x r p 17 (31/10) 2 1 87); try assumption; try lra. unfold s1. rewrite Rmult_1_l. exact A.
Qed.
(** np.linalg.det of three differences. *)
Lemma G_det x y z p q r : V s1 (31/10) x p -> bnd D p -> V s1 (31/10) y q -> bnd D q -> V s1 (31/10) z r -> bnd D r -> G k s3 (pdet Bnum x y z) (triple3 p q r) 87.
Proof.
  destruct x as [[x0 x1] x2], y as [[y0 y1] y2], z as [[z0 z1] z2], p as [[p0 p1] p2], q as [[q0 q1'] q2], r as [[r0 r1] r2]. cbn [V bnd]. intros (X0 & X1 & X2) (A0 & A1 & A2) (Y0 & Y1 & Y2) (B0 & B1 & B2) (Z0 & Z1 & Z2) (C0 & C1 & C2).
  set (M := (1 + (31/10) / 1048576) * D). assert (HM : 1/1000 <= M <= 1001) by (unfold M; lra).
  assert (In : forall x p, G k s1 x p (31/10) -> Rabs p <= D -> fin_le M x).
  { intros x p Gx Bx. apply (G_in s1 x p (31/10) 1 M); unfold s1; try lra. exact Gx. unfold M. lra. }
  destruct (proj2 LA M (x0, x1, x2) (y0, y1, y2) (z0, z1, z2) HM) as [Fd Hd]; [split; [|split]; eapply In; eassumption..|].
  split; [exact Fd|]. match type of Hd with Rabs (Bv ?t - _) <= _ => change (pdet Bnum (x0, x1, x2) (y0, y1, y2) (z0, z1, z2)) with t; set (d := t) in * end. cbn [val3] in Hd. rewrite u53 in Hd.
  assert (Pr : forall (x y z : binary64) (p q r : R), G k s1 x p (31/10) -> Rabs p <= D -> G k s1 y q (31/10) -> Rabs q <= D -> G k s1 z r (31/10) -> Rabs r <= D -> Rabs (Bv x * Bv y * Bv z - p * q * r) <= (931/100) * (k * s3)).
  { clear - Hk HD. intros x y z p q r [_ X] A [_ Y] B [_ Z] C. assert (D0 : 0 < D) by lra. unfold s1 in *.
    destruct (prod_err D D _ _ _ _ (31/10) (31/10) 1 1 D0 D0 ltac:(lra) ltac:(lra) X Y ltac:(lra) ltac:(lra)) as [E1 Q1].
    assert (D2 : 0 < D * D) by nra. assert (Bpq : Rabs (p * q) <= 1 * (D * D)) by (rewrite Rabs_mult, Rmult_1_l; apply Rmult_le_compat; try apply Rabs_pos; assumption).
    destruct (prod_err (D * D) D _ _ _ _ (31/10 * (1 + 31/10 / 1048576) + 1 * (31/10)) (31/10) 1 1 D2 D0 ltac:(lra) ltac:(lra) E1 Z Bpq ltac:(lra)) as [E2 _]. unfold s3.
    eapply Rle_trans; [exact E2|]. replace (k * (D * D * D)) with (k * (D * (D * D))) by ring. apply Rmult_le_compat_r; [|lra]. apply Rmult_le_pos; [lra|]. nra. }
  assert (T : Rabs (triple3 (Bv x0, Bv x1, Bv x2) (Bv y0, Bv y1, Bv y2) (Bv z0, Bv z1, Bv z2) - triple3 (p0, p1, p2) (q0, q1', q2) (r0, r1, r2)) <= 56 * (k * s3)).
  { pose proof (Pr _ _ _ _ _ _ X1 A1 Y2 B2 Z0 C0) as E1. pose proof (Pr _ _ _ _ _ _ X2 A2 Y1 B1 Z0 C0) as E2. pose proof (Pr _ _ _ _ _ _ X2 A2 Y0 B0 Z1 C1) as E3. pose proof (Pr _ _ _ _ _ _ X0 A0 Y2 B2 Z1 C1) as E4. pose proof (Pr _ _ _ _ _ _ X0 A0 Y1 B1 Z2 C2) as E5. pose proof (Pr _ _ _ _ _ _ X1 A1 Y0 B0 Z2 C2) as E6.
    clear - E1 E2 E3 E4 E5 E6 Hk HD. assert (0 < k * s3) by (apply Rmult_lt_0_compat; [lra|unfold s3; nra]). set (e := k * s3) in *. clearbody e. unfold triple3. cbn [cross3 dot3].
    match goal with |- Rabs (?a - ?b) <= _ => replace (a - b) with (((Bv x1 * Bv y2 * Bv z0 - p1 * q2 * r0) + - (Bv x2 * Bv y1 * Bv z0 - p2 * q1' * r0) + (Bv x2 * Bv y0 * Bv z1 - p2 * q0 * r1)) + (- (Bv x0 * Bv y2 * Bv z1 - p0 * q2 * r1) + (Bv x0 * Bv y1 * Bv z2 - p0 * q1' * r2) + - (Bv x1 * Bv y0 * Bv z2 - p1 * q0 * r2))) by ring end.
    eapply Rle_trans; [apply Rabs_triang|]. rewrite <- Rabs_Ropp in E2, E4, E6. pose proof (sum3_le _ _ _ _ _ _ _ E1 E2 E3 (Rle_refl _)). pose proof (sum3_le _ _ _ _ _ _ _ E4 E5 E6 (Rle_refl _)). lra. }
  replace (Bv d - triple3 (p0, p1, p2) (q0, q1', q2) (r0, r1, r2)) with ((Bv d - triple3 (Bv x0, Bv x1, Bv x2) (Bv y0, Bv y1, Bv y2) (Bv z0, Bv z1, Bv z2)) + (triple3 (Bv x0, Bv x1, Bv x2) (Bv y0, Bv y1, Bv y2) (Bv z0, Bv z1, Bv z2) - triple3 (p0, p1, p2) (q0, q1', q2) (r0, r1, r2))) by ring.
  eapply Rle_trans; [apply Rabs_triang|].
  assert (1200 * ulp1 * M ^ 3 <= 305/10 * (k * s3)).
  { replace (M ^ 3) with ((1 + (31/10) / 1048576) ^ 3 * s3) by (unfold M, s3; ring). assert (0 < s3) by (unfold s3; nra). assert (0 < ulp1) by (unfold ulp1; lra).
    replace (1200 * ulp1 * ((1 + 31 / 10 / 1048576) ^ 3 * s3)) with (30 * (1 + 31 / 10 / 1048576) ^ 3 * ((40 * ulp1) * s3)) by ring.
    apply Rmult_le_compat; [lra|apply Rmult_le_pos; lra|lra|apply Rmult_le_compat_r; lra]. }
  assert (0 < k * s3) by (apply Rmult_lt_0_compat; [lra|unfold s3; nra]). lra.
Qed.
Lemma G_vol x y z w a b c d : P E x a -> P E y b -> P E z c -> P E w d -> apart_le D b a -> apart_le D c a -> apart_le D d a ->
  G k s3 (vol4 Bnum x y z w) (vol3 a b c d) (156/10) /\ 0 <= vol3 a b c d <= s3.
Proof.
  intros X Y Z W Ab Ac Ad. destruct (V_diff y x b a Y X Ab) as [V1 B1]. destruct (V_diff z x c a Z X Ac) as [V2 B2]. destruct (V_diff w x d a W X Ad) as [V3 B3].
  destruct (V_cross _ _ _ _ V2 B2 V3 B3) as [_ B4]. pose proof (dot3_le _ _ B1 B4) as Bd. pose proof (G_det _ _ _ _ _ _ V1 B1 V2 B2 V3 B3) as Gd.
  assert (Et : dot3 (sub3 b a) (cross3 (sub3 c a) (sub3 d a)) = triple3 (sub3 b a) (sub3 c a) (sub3 d a)).
  { clear. destruct a as [[? ?] ?], b as [[? ?] ?], c as [[? ?] ?], d as [[? ?] ?]. cbn. ring. }
  rewrite Et in Bd. unfold vol4, vol3. apply G_abs in Gd. pose proof (Rabs_pos (triple3 (sub3 b a) (sub3 c a) (sub3 d a))). split; [|lra].
  apply (G_divZ k 1 Hk u1 q1 s3 _ _ 87 6 6 _ S3); try assumption; try lra; try lia. rewrite Rabs_Rabsolu. exact Bd.
Qed.

Lemma EPS_B : Bfin (EPS Bnum) = true /\ Rabs (Bv (EPS Bnum) - 1/1000000) <= 1/10000000000.
Proof.
  change (EPS Bnum) with (fdiv Bnum (fZ Bnum 1) (fZ Bnum 1000000)).
  destruct (apx_Z 1) as [[F1 _] V1]; [cbn; lia|]. destruct (apx_Z 1000000) as [[F2 _] V2]; [cbn; lia|].
  destruct (bdiv_err (fZ Bnum 1) (fZ Bnum 1000000) F1 F2) as [[Fx Hx] _]; [rewrite V2; lra|rewrite V1, V2; pose proof p500; rewrite Rabs_right; lra|].
  rewrite V1, V2 in Hx. split; [exact Fx|]. pose proof eta_lt. rewrite (Rabs_right (1/1000000)) in Hx by lra. unfold ulp1 in Hx. lra.
Qed.
(** The containment test is decided by the exact volumes when they differ by much less or
    much more than the tolerance. *)
Lemma in_tet_B x y z w v a b c d p : P E x a -> P E y b -> P E z c -> P E w d -> P E v p -> spread D [a; b; c; d; p] ->
  100 * (k * s3) <= 4/10000000 * vol3 a b c d ->
  let X := vol3 a b c d - vol3 p b c d - vol3 a p c d - vol3 a b p d - vol3 a b c p in
  (Rabs X <= 4/10000000 * vol3 a b c d -> in_tet Bnum v x y z w = true) /\ (16/10000000 * vol3 a b c d <= Rabs X -> in_tet Bnum v x y z w = false).
Proof.
  intros Px Py Pz Pw Pv Sp Hv X.
  assert (I : forall r t, In r [a; b; c; d; p] -> In t [a; b; c; d; p] -> apart_le D r t) by exact Sp. cbn [In] in I.
  destruct (G_vol x y z w a b c d Px Py Pz Pw ltac:(apply I; tauto) ltac:(apply I; tauto) ltac:(apply I; tauto)) as [G0 B0].
  destruct (G_vol v y z w p b c d Pv Py Pz Pw ltac:(apply I; tauto) ltac:(apply I; tauto) ltac:(apply I; tauto)) as [G1 B1].
  destruct (G_vol x v z w a p c d Px Pv Pz Pw ltac:(apply I; tauto) ltac:(apply I; tauto) ltac:(apply I; tauto)) as [G2 B2].
  destruct (G_vol x y v w a b p d Px Py Pv Pw ltac:(apply I; tauto) ltac:(apply I; tauto) ltac:(apply I; tauto)) as [G3 B3].
  destruct (G_vol x y z v a b c p Px Py Pz Pv ltac:(apply I; tauto) ltac:(apply I; tauto) ltac:(apply I; tauto)) as [G4 B4].
  set (v0 := vol3 a b c d) in *. set (v1 := vol3 p b c d) in *. set (v2 := vol3 a p c d) in *. set (v3 := vol3 a b p d) in *. set (v4 := vol3 a b c p) in *.
  assert (Sp0 : 0 < s3) by (destruct S3 as [? _]; assumption).
  assert (T1 : G k s3 (fsub Bnum (vol4 Bnum x y z w) (vol4 Bnum v y z w)) (v0 - v1) 34).
  { apply (G_sub k 1 Hk u1 q1 s3 _ _ _ _ (156/10) (156/10) 1 _ S3); try assumption; try lra. apply Rabs_le. lra. }
  assert (T2 : G k s3 (fsub Bnum (fsub Bnum (vol4 Bnum x y z w) (vol4 Bnum v y z w)) (vol4 Bnum x v z w)) (v0 - v1 - v2) 52).
  { apply (G_sub k 1 Hk u1 q1 s3 _ _ _ _ 34 (156/10) 2 _ S3); try assumption; try lra. apply Rabs_le. lra. }
  assert (T3 : G k s3 (fsub Bnum (fsub Bnum (fsub Bnum (vol4 Bnum x y z w) (vol4 Bnum v y z w)) (vol4 Bnum x v z w)) (vol4 Bnum x y v w)) (v0 - v1 - v2 - v3) 71).
  { apply (G_sub k 1 Hk u1 q1 s3 _ _ _ _ 52 (156/10) 3 _ S3); try assumption; try lra. apply Rabs_le. lra. }
  assert (T4 : G k s3 (fsub Bnum (fsub Bnum (fsub Bnum (fsub Bnum (vol4 Bnum x y z w) (vol4 Bnum v y z w)) (vol4 Bnum x v z w)) (vol4 Bnum x y v w)) (vol4 Bnum x y z v)) (v0 - v1 - v2 - v3 - v4) 91).
  { apply (G_sub k 1 Hk u1 q1 s3 _ _ _ _ 71 (156/10) 4 _ S3); try assumption; try lra. apply Rabs_le. lra. }
  fold X in T4. apply G_abs in T4. destruct T4 as [F4 H4]. set (Xf := fabs Bnum _) in F4, H4.
  assert (Y : Bfin (fmul Bnum (EPS Bnum) (vol4 Bnum x y z w)) = true /\ Rabs (Bv (fmul Bnum (EPS Bnum) (vol4 Bnum x y z w)) - 1/1000000 * v0) <= 1/10000000 * v0).
  { destruct EPS_B as [Fe He]. destruct G0 as [F0 H0]. destruct S3 as (_ & Et & Sb).
    set (e := EPS Bnum) in *. set (vf := vol4 Bnum x y z w) in *.
    assert (K3 : 0 < k * s3) by (apply Rmult_lt_0_compat; lra).
    assert (Dv : Rabs (Bv vf - v0) <= 1/10000000 * v0) by (eapply Rle_trans; [exact H0|]; lra).
    assert (Df : Rabs (Bv e * Bv vf - 1/1000000 * v0) <= 5/100000000 * v0).
    { replace (Bv e * Bv vf - 1/1000000 * v0) with ((Bv e - 1/1000000) * Bv vf + 1/1000000 * (Bv vf - v0)) by ring.
      assert (Rabs (Bv vf) <= 2 * v0). { replace (Bv vf) with (v0 + (Bv vf - v0)) by ring. eapply Rle_trans; [apply Rabs_triang|]. rewrite (Rabs_right v0) by lra. lra. }
      eapply Rle_trans; [apply Rabs_triang|]. rewrite !Rabs_mult. rewrite (Rabs_right (1/1000000)) by lra.
      assert (Rabs (Bv e - 1 / 1000000) * Rabs (Bv vf) <= 1/10000000000 * (2 * v0)) by (apply Rmult_le_compat; try apply Rabs_pos; assumption). lra. }
    assert (Ab : Rabs (Bv e * Bv vf) <= 2/1000000 * v0).
    { replace (Bv e * Bv vf) with (1/1000000 * v0 + (Bv e * Bv vf - 1/1000000 * v0)) by ring. eapply Rle_trans; [apply Rabs_triang|]. rewrite (Rabs_right (1/1000000 * v0)) by lra. lra. }
    destruct (bmult_err e vf Fe F0) as [[Fy Hy] _]; [pose proof big_room; pose proof big_1; lra|].
    split; [exact Fy|]. replace (Bv (fmul Bnum e vf) - 1/1000000 * v0) with ((Bv (fmul Bnum e vf) - Bv e * Bv vf) + (Bv e * Bv vf - 1/1000000 * v0)) by ring.
    eapply Rle_trans; [apply Rabs_triang|]. assert (ulp1 * Rabs (Bv e * Bv vf) <= 1 * Rabs (Bv e * Bv vf)) by (apply Rmult_le_compat_r; [apply Rabs_pos|unfold ulp1; lra]).
    assert (ulp1 * Rabs (Bv e * Bv vf) <= / 1000000 * Rabs (Bv e * Bv vf)) by (apply Rmult_le_compat_r; [apply Rabs_pos|unfold ulp1; lra]). lra. }
  destruct Y as [Fy Hy]. assert (K3 : 0 < k * s3) by (apply Rmult_lt_0_compat; lra). unfold in_tet. cbv zeta. fold Xf.
  assert (Hy' : 9/10000000 * v0 <= Bv (fmul Bnum (EPS Bnum) (vol4 Bnum x y z w)) <= 11/10000000 * v0) by (unfold Rabs in Hy; destruct (Rcase_abs _) in Hy; lra).
  assert (H4' : Rabs X - 4/10000000 * v0 <= Bv Xf <= Rabs X + 4/10000000 * v0) by (unfold Rabs at 1 in H4; destruct (Rcase_abs _) in H4; lra).
  split; intros HX; [apply blt_true|apply blt_false]; try assumption; lra.
Qed.
(** Quotients of two such products. *)
Lemma G_quot x y n d : G k s3 x n 87 -> G k s3 y d 87 -> Rabs n <= 6 * s3 -> 870000000 * (k * s3) <= Rabs d ->
  Bfin (fdiv Bnum x y) = true /\ Rabs (Bv (fdiv Bnum x y) - n / d) <= 11/100000000 * (1 + Rabs (n / d)) /\ Rabs (n / d) <= 100000000.
Proof.
  intros [Fx Hx] [Fy Hy] Bn Bd. destruct S3 as (Sp0 & _ & _). assert (K3 : 0 < k * s3) by (apply Rmult_lt_0_compat; lra).
  assert (Dp : 0 < Rabs d) by lra. assert (Dn : d <> 0) by (intros E0; rewrite E0, Rabs_R0 in Dp; lra).
  assert (Ey : Rabs (Bv y - d) <= 1/10000000 * Rabs d) by lra. assert (Ex : Rabs (Bv x - n) <= 1/10000000 * Rabs d) by lra.
  assert (Ly : 99/100 * Rabs d <= Rabs (Bv y)).
  { replace (Bv y) with (d - (d - Bv y)) by ring. pose proof (Rabs_triang_inv d (d - Bv y)). rewrite (Rabs_minus_sym d) in H. lra. }
  assert (Yn : Bv y <> 0) by (intros E0; rewrite E0, Rabs_R0 in Ly; lra).
  assert (Q : Rabs (n / d) <= 100000000).
  { unfold Rdiv. rewrite Rabs_mult, Rabs_inv. apply (Rmult_le_reg_r (Rabs d)); [lra|]. rewrite Rmult_assoc, Rinv_l by lra. rewrite Rmult_1_r.
    eapply Rle_trans; [exact Bn|]. unfold ulp1 in Hu. assert (/ 9007199254740992 * s3 <= k * s3) by (apply Rmult_le_compat_r; lra). lra. }
  assert (Dq : Rabs (Bv x / Bv y - n / d) <= 105/1000000000 * (1 + Rabs (n / d))).
  { replace (Bv x / Bv y - n / d) with (((Bv x - n) - n / d * (Bv y - d)) * / Bv y) by (field; split; assumption).
    rewrite Rabs_mult, Rabs_inv. apply (Rmult_le_reg_r (Rabs (Bv y))); [lra|]. rewrite Rmult_assoc, Rinv_l by lra. rewrite Rmult_1_r.
    pose proof (Rabs_pos (n / d)). apply Rle_trans with (1/10000000 * Rabs d * (1 + Rabs (n / d))).
    - unfold Rminus at 1. eapply Rle_trans; [apply Rabs_triang|]. rewrite Rabs_Ropp, Rabs_mult.
      assert (Rabs (n / d) * Rabs (Bv y - d) <= Rabs (n / d) * (1 / 10000000 * Rabs d)) by (apply Rmult_le_compat_l; lra). lra.
    - assert (0 <= (105/1000000000 * Rabs (Bv y) - 1/10000000 * Rabs d) * (1 + Rabs (n / d))) by (apply Rmult_le_pos; lra). lra. }
  assert (Bq : Rabs (Bv x / Bv y) <= 2 + 2 * Rabs (n / d)).
  { replace (Bv x / Bv y) with (n / d + (Bv x / Bv y - n / d)) by ring. eapply Rle_trans; [apply Rabs_triang|]. pose proof (Rabs_pos (n / d)). lra. }
  destruct (bdiv_err x y Fx Fy Yn) as [[Fz Hz] _]; [pose proof p500; lra|]. split; [exact Fz|]. split; [|exact Q].
  replace (Bv (fdiv Bnum x y) - n / d) with ((Bv (fdiv Bnum x y) - Bv x / Bv y) + (Bv x / Bv y - n / d)) by ring.
  eapply Rle_trans; [apply Rabs_triang|]. pose proof eta_lt. pose proof (Rabs_pos (n / d)). unfold ulp1 in Hz. pose proof (Rabs_pos (Bv x / Bv y)). lra.
Qed.
Lemma lo_B : Bfin (fsub Bnum (fZ Bnum 0) (EPS Bnum)) = true /\ Rabs (Bv (fsub Bnum (fZ Bnum 0) (EPS Bnum)) + 1/1000000) <= 1/1000000000.
Proof.
  destruct EPS_B as [Fe He]. set (e := EPS Bnum) in *. destruct (apx_Z 0) as [[F0 _] V0]; [cbn; lia|].
  assert (Be : Rabs (Bv e) <= 2/1000000) by (replace (Bv e) with (1/1000000 + (Bv e - 1/1000000)) by ring; eapply Rle_trans; [apply Rabs_triang|]; rewrite (Rabs_right (1/1000000)) by lra; lra).
  destruct (bminus_err (fZ Bnum 0) e F0 Fe) as [[Fx Hx] _]; rewrite V0 in *; replace (0 - Bv e) with (- Bv e) in * by ring; rewrite Rabs_Ropp in *; [pose proof p500; lra|].
  split; [exact Fx|]. set (l := fsub Bnum (fZ Bnum 0) e) in *. replace (Bv l + 1/1000000) with ((Bv l - - Bv e) - (Bv e - 1/1000000)) by ring.
  eapply Rle_trans; [apply (tri2m _ _ _ _ (Rle_refl _) (Rle_refl _))|]. unfold ulp1 in Hx. pose proof eta_lt. lra.
Qed.
Lemma hi_B : Bfin (fadd Bnum (fZ Bnum 1) (EPS Bnum)) = true /\ Rabs (Bv (fadd Bnum (fZ Bnum 1) (EPS Bnum)) - (1 + 1/1000000)) <= 1/1000000000.
Proof.
  destruct EPS_B as [Fe He]. set (e := EPS Bnum) in *. destruct (apx_Z 1) as [[F0 _] V0]; [cbn; lia|].
  assert (Be : Rabs (1 + Bv e) <= 2) by (replace (1 + Bv e) with ((1 + 1/1000000) + (Bv e - 1/1000000)) by ring; eapply Rle_trans; [apply Rabs_triang|]; rewrite (Rabs_right (1 + 1/1000000)) by lra; lra).
  destruct (bplus_err (fZ Bnum 1) e F0 Fe) as [[Fx Hx] _]; rewrite V0 in *; [pose proof p500; lra|].
  split; [exact Fx|]. set (l := fadd Bnum (fZ Bnum 1) e) in *. replace (Bv l - (1 + 1/1000000)) with ((Bv l - (1 + Bv e)) + (Bv e - 1/1000000)) by ring.
  eapply Rle_trans; [apply Rabs_triang|]. unfold ulp1 in Hx. pose proof eta_lt. lra.
Qed.
Lemma sum_quot x y u v : Bfin x = true -> Bfin y = true -> Rabs (Bv x - u) <= 11/100000000 * (1 + Rabs u) -> Rabs (Bv y - v) <= 11/100000000 * (1 + Rabs v) ->
  Rabs u <= 100000000 -> Rabs v <= 100000000 -> Bfin (fadd Bnum x y) = true /\ Rabs (Bv (fadd Bnum x y) - (u + v)) <= 12/100000000 * (2 + Rabs u + Rabs v).
Proof.
  intros Fx Fy Hx Hy Bu Bw. pose proof (Rabs_pos u). pose proof (Rabs_pos v).
  assert (D0 : Rabs (Bv x + Bv y - (u + v)) <= 11/100000000 * (2 + Rabs u + Rabs v)).
  { replace (Bv x + Bv y - (u + v)) with ((Bv x - u) + (Bv y - v)) by ring. eapply Rle_trans; [apply (tri2 _ _ _ _ Hx Hy)|]. lra. }
  assert (B0 : Rabs (Bv x + Bv y) <= 2 * (2 + Rabs u + Rabs v)).
  { replace (Bv x + Bv y) with ((u + v) + (Bv x + Bv y - (u + v))) by ring. eapply Rle_trans; [apply (tri2 _ _ _ _ (Rabs_triang u v) D0)|]. lra. }
  destruct (bplus_err x y Fx Fy) as [[Fz Hz] _]; [pose proof p500; lra|]. split; [exact Fz|].
  replace (Bv (fadd Bnum x y) - (u + v)) with ((Bv (fadd Bnum x y) - (Bv x + Bv y)) + (Bv x + Bv y - (u + v))) by ring.
  eapply Rle_trans; [apply Rabs_triang|]. unfold ulp1 in Hz. pose proof eta_lt. lra.
Qed.

(** The crossing test. *)
Lemma seg_tri_B x y z w m a b c d e : P E x a -> P E y b -> P E z c -> P E w d -> P E m e -> spread D [a; b; c; d; e] ->
  let K := dot3 (cross3 (sub3 b a) (sub3 e c)) (sub3 d c) in
  (Rabs K + 87 * (k * s3) <= 9/10000000 -> seg_tri Bnum x y z w m = false) /\
  (870000000 * (k * s3) <= Rabs K -> forall u v t, add3 a (scale3 t (sub3 b a)) = add3 c (add3 (scale3 u (sub3 d c)) (scale3 v (sub3 e c))) ->
    (seg_tri Bnum x y z w m = true -> - (2/1000000) <= u /\ - (2/1000000) <= v /\ u + v <= 1 + 2/1000000 /\ - (2/1000000) <= t <= 1 + 2/1000000) /\
    (12/10000000 <= Rabs K -> 0 <= u -> 0 <= v -> u + v <= 1 -> 0 <= t <= 1 -> seg_tri Bnum x y z w m = true)).
Proof.
  intros Px Py Pz Pw Pm Sp K. assert (I : forall r t, In r [a; b; c; d; e] -> In t [a; b; c; d; e] -> apart_le D r t) by exact Sp. cbn [In] in I.
  destruct (V_diff y x b a Py Px ltac:(apply I; tauto)) as [VAB BAB]. destruct (V_diff w z d c Pw Pz ltac:(apply I; tauto)) as [VCD BCD].
  destruct (V_diff m z e c Pm Pz ltac:(apply I; tauto)) as [VCE BCE]. destruct (V_diff x z a c Px Pz ltac:(apply I; tauto)) as [VCA BCA].
  destruct (V_cross _ _ _ _ VAB BAB VCE BCE) as [VP BP]. destruct (V_cross _ _ _ _ VCA BCA VCD BCD) as [VQ BQ].
  destruct (G_dot' _ _ _ _ VCD BCD VP BP) as [GK BK]. destruct (G_dot' _ _ _ _ VCA BCA VP BP) as [Gu Bu].
  destruct (G_dot' _ _ _ _ VAB BAB VQ BQ) as [Gv Bw]. destruct (G_dot' _ _ _ _ VCE BCE VQ BQ) as [Gt Bt]. fold K in GK, BK.
  destruct S3 as (Sp0 & _ & _). assert (K3 : 0 < k * s3) by (apply Rmult_lt_0_compat; lra).
  destruct EPS_B as [Fe He]. destruct lo_B as [Fl Hl]. destruct hi_B as [Fh Hh].
  unfold seg_tri. cbv zeta.
  set (AB := psub Bnum y x) in *. set (CD := psub Bnum w z) in *. set (CE := psub Bnum m z) in *. set (CA := psub Bnum x z) in *.
  set (bunbo := pdot Bnum (pcross Bnum AB CE) CD) in *. set (lo := fsub Bnum (fZ Bnum 0) (EPS Bnum)) in *. set (hi := fadd Bnum (fZ Bnum 1) (EPS Bnum)) in *.
  assert (Lo : - (1001/1000000000) <= Bv lo <= - (999/1000000000)) by (unfold Rabs in Hl; destruct (Rcase_abs _) in Hl; lra).
  assert (Hi : 1 + 999/1000000000 <= Bv hi <= 1 + 1001/1000000000) by (unfold Rabs in Hh; destruct (Rcase_abs _) in Hh; lra).
  assert (Ep : 999/1000000000 <= Bv (EPS Bnum) <= 1001/1000000000) by (unfold Rabs in He; destruct (Rcase_abs _) in He; lra).
  set (eps := EPS Bnum) in *. clearbody eps lo hi. clear Hl Hh He.
  assert (GK' := G_abs _ _ _ _ _ GK). destruct GK' as [FK HK].
  assert (Bk : Rabs K - 87 * (k * s3) <= Bv (fabs Bnum bunbo) <= Rabs K + 87 * (k * s3)).
  { unfold Rabs at 1 in HK. destruct (Rcase_abs _) in HK; lra. }
  split.
  { intros Hs. rewrite (blt_true _ eps FK Fe) by lra. reflexivity. }
  intros Cond u v t Sol.
  assert (Kp : 0 < Rabs K) by lra. assert (Kn : K <> 0) by (intros E0; rewrite E0, Rabs_R0 in Kp; lra).
  assert (Su : u = dot3 (cross3 (sub3 b a) (sub3 e c)) (sub3 a c) / K /\ v = dot3 (cross3 (sub3 a c) (sub3 d c)) (sub3 b a) / K /\ t = dot3 (cross3 (sub3 a c) (sub3 d c)) (sub3 e c) / K).
  { clear - Sol Kn. destruct a as [[a0 a1] a2], b as [[b0 b1] b2], c as [[c0 c1] c2], d as [[d0 d1] d2], e as [[e0 e1] e2]. cbn [add3 scale3 sub3] in Sol.
    injection Sol as H0 H1 H2. unfold K in *. cbn [dot3 cross3 sub3] in *.
    assert (A0 : a0 = c0 + (u * (d0 - c0) + v * (e0 - c0)) - t * (b0 - a0)) by lra.
    assert (A1 : a1 = c1 + (u * (d1 - c1) + v * (e1 - c1)) - t * (b1 - a1)) by lra.
    assert (A2 : a2 = c2 + (u * (d2 - c2) + v * (e2 - c2)) - t * (b2 - a2)) by lra.
    remember (b0 - a0) as p0. remember (b1 - a1) as p1. remember (b2 - a2) as p2. clear Heqp0 Heqp1 Heqp2.
    split; [|split]; (apply (Rmult_eq_reg_r ((p1 * (e2 - c2) - p2 * (e1 - c1)) * (d0 - c0) + (p2 * (e0 - c0) - p0 * (e2 - c2)) * (d1 - c1) + (p0 * (e1 - c1) - p1 * (e0 - c0)) * (d2 - c2))); [|exact Kn]);
      unfold Rdiv; rewrite Rmult_assoc, Rinv_l, Rmult_1_r by exact Kn; rewrite A0, A1, A2; ring. }
  destruct Su as (Eu & Ev & Et).
  destruct (G_quot _ bunbo _ K Gu GK Bu Cond) as (Fu & Hu' & Mu). destruct (G_quot _ bunbo _ K Gv GK Bw Cond) as (Fv & Hv & Mv). destruct (G_quot _ bunbo _ K Gt GK Bt Cond) as (Ft & Ht & Mt).
  rewrite <- Eu in Hu', Mu. rewrite <- Ev in Hv, Mv. rewrite <- Et in Ht, Mt.
  set (uf := fdiv Bnum (pdot Bnum (pcross Bnum AB CE) CA) bunbo) in *. set (vf := fdiv Bnum (pdot Bnum (pcross Bnum CA CD) AB) bunbo) in *. set (tf := fdiv Bnum (pdot Bnum (pcross Bnum CA CD) CE) bunbo) in *.
  destruct (sum_quot uf vf u v Fu Fv Hu' Hv Mu Mv) as [Fs Hs]. set (sf := fadd Bnum uf vf) in *.
  assert (Bk' : 0 <= Bv (fabs Bnum bunbo) - 999/1000 * Rabs K) by lra. clear - Fu Fv Ft Fs Hu' Hv Ht Hs Lo Hi Ep Fe Fl Fh FK Bk'. rename Hu' into Hu.
  split.
  - intros H. destruct (flt Bnum (fabs Bnum bunbo) eps); [discriminate H|].
    destruct (fle Bnum lo uf && fle Bnum uf hi) eqn:Cu; [|discriminate H]. apply andb_true_iff in Cu as [C1 C2].
    destruct (fle Bnum lo vf && fle Bnum sf hi) eqn:Cv; [|discriminate H]. apply andb_true_iff in Cv as [C3 C4]. apply andb_true_iff in H as [C5 C6].
    apply ble_spec in C1, C2, C3, C4, C5, C6; try assumption.
    assert (Uu : - (2/1000000) <= u <= 1 + 2/1000000). { unfold Rabs in Hu. destruct (Rcase_abs u) in Hu; destruct (Rcase_abs _) in Hu; lra. }
    assert (Uv : - (2/1000000) <= v). { unfold Rabs in Hv. destruct (Rcase_abs v) in Hv; destruct (Rcase_abs _) in Hv; lra. }
    split; [lra|]. split; [lra|]. split.
    + assert (Rabs u <= 1 + 2/1000000) by (apply Rabs_le; lra). unfold Rabs at 1 3 in Hs. destruct (Rcase_abs v) in Hs; destruct (Rcase_abs _) in Hs; lra.
    + unfold Rabs in Ht. destruct (Rcase_abs t) in Ht; destruct (Rcase_abs _) in Ht; lra.
  - intros Kb U0 V0 UV T0. rewrite (blt_false (fabs Bnum bunbo) eps FK Fe) by lra.
    rewrite (Rabs_right u) in Hu, Hs by lra. rewrite (Rabs_right v) in Hv, Hs by lra. rewrite (Rabs_right t) in Ht by lra.
    unfold Rabs in Hu, Hv, Ht, Hs. destruct (Rcase_abs _) in Hu; destruct (Rcase_abs _) in Hv; destruct (Rcase_abs _) in Ht; destruct (Rcase_abs _) in Hs;
      rewrite (ble_true lo uf), (ble_true uf hi), (ble_true lo vf), (ble_true sf hi), (ble_true lo tf), (ble_true tf hi) by (assumption || lra); reflexivity.
Qed.
End Figure.
End Lib.
