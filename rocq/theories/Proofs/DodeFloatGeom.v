(** Rounding errors of the geometric predicates of dode2/numericalc.py in binary64. *)
From Coq Require Import Reals List ZArith Bool Lia Lra Psatz.
From Flocq Require Import Core IEEE754.BinarySingleNaN IEEE754.Binary IEEE754.Bits.
From Verif Require Import Base.Res Model.Tau Model.Arr Model.Num Model.IcoNumeric Model.DodeNumeric Model.DodeIntersect
  Spec.LinAlg Spec.Value Spec.RVec Spec.Shape Spec.IcoSpec Spec.DodeSpec Spec.Space Spec.Plane Spec.Float
  Proofs.ResLemmas Proofs.RVecLemmas Proofs.Irrational Proofs.NumLemmas Proofs.IntersectLemmas Proofs.CoplanarLemmas Proofs.RoundLemmas Proofs.FloatCalc Proofs.FloatGeom Proofs.PlaneLemmas Proofs.DodeFloat.
Import ListNotations.
Local Open Scope R_scope.
Local Notation Bnum := Bmath.

Section Lib.
Context {la : linalg} {LA : linalg_ok la}.

Lemma bsqrt_err x : Bfin x = true -> 0 <= Bv x -> apx (fsqrt Bnum x) (sqrt (Bv x)) (ulp1 * sqrt (Bv x) + eta).
Proof.
  intros Fx H. change (fsqrt Bnum x) with (b64_sqrt mode_NE x). unfold b64_sqrt.
  match goal with |- context [Bsqrt 53 1024 ?a ?b ?n ?m _] => pose proof (Bsqrt_correct 53 1024 a b n m x) as (V & Fz & _) end.
  split.
  - unfold Bfin in *. rewrite Fz. destruct x as [s|s|s p|s m e He]; try discriminate Fx; [reflexivity|]. destruct s; [|reflexivity]. exfalso.
    assert (Bv (B754_finite 53 1024 true m e He) < 0); [|lra]. unfold Bv, B2R. apply Float_prop.F2R_lt_0. reflexivity.
  - unfold Bv in *. rewrite V. eapply Rle_trans; [apply rnd_err|]. rewrite (Rabs_pos_eq (sqrt _)) by apply sqrt_pos. lra.
Qed.
Lemma bplus_pos x y : Bfin x = true -> Bfin y = true -> 0 <= Bv x -> 0 <= Bv y -> Bv x + Bv y <= bpow radix2 500 -> 0 <= Bv (fadd Bnum x y).
Proof.
  intros Fx Fy Px Py L. change (fadd Bnum x y) with (b64_plus mode_NE x y). unfold b64_plus.
  match goal with |- context [Bplus 53 1024 ?p ?q ?n ?m _ _] => pose proof (Bplus_correct 53 1024 p q n m x y Fx Fy) as V end.
  rewrite Rlt_bool_true in V by (apply big_ok; rewrite Rabs_pos_eq by (lra); exact L). destruct V as (V & _). rewrite V.
  apply round_ge_generic; [apply fexp_correct; reflexivity|apply valid_rnd_round_mode|apply generic_format_0|lra].
Qed.
Lemma bsquare_pos x : Bfin x = true -> Rabs (Bv x * Bv x) <= bpow radix2 500 -> 0 <= Bv (fmul Bnum x x).
Proof.
  intros Fx L. change (fmul Bnum x x) with (b64_mult mode_NE x x). unfold b64_mult.
  match goal with |- context [Bmult 53 1024 ?p ?q ?n ?m _ _] => pose proof (Bmult_correct 53 1024 p q n m x x) as V end.
  rewrite Rlt_bool_true in V by (apply big_ok; exact L). destruct V as (V & _). rewrite V.
  apply round_ge_generic; [apply fexp_correct; reflexivity|apply valid_rnd_round_mode|apply generic_format_0|apply Rle_0_sqr].
Qed.
Lemma sqrt_plus_le x y : 0 <= x -> 0 <= y -> sqrt (x + y) <= sqrt x + sqrt y.
Proof.
  intros Hx Hy. pose proof (sqrt_pos x). pose proof (sqrt_pos y). rewrite <- (sqrt_square (sqrt x + sqrt y)) by lra. apply sqrt_le_1_alt.
  pose proof (sqrt_sqrt x Hx). pose proof (sqrt_sqrt y Hy). nra.
Qed.
(** sqrt of a number known up to a relative and a tiny absolute error *)
Lemma sqrt_near x y e h : 0 <= x -> 0 <= y -> 0 <= e <= 1/2 -> 0 <= h -> Rabs (x - y) <= e * y + h * h -> Rabs (sqrt x - sqrt y) <= e * sqrt y + h.
Proof.
  intros Hx Hy He Hh H. assert (B : y - (e * y + h * h) <= x <= y + (e * y + h * h)) by (unfold Rabs in H; destruct (Rcase_abs _) in H; lra).
  pose proof (sqrt_pos y) as Y0. pose proof (sqrt_pos x) as X0. pose proof (sqrt_sqrt y Hy) as Y2. pose proof (sqrt_sqrt x Hx) as X2.
  set (a := sqrt x) in *. set (b := sqrt y) in *. clearbody a b. subst x y. apply Rabs_le. split.
  - apply Rnot_lt_le. intros L. assert (c0 : 0 <= a < b * (1 - e) - h) by lra. set (g := b * (1 - e)) in *.
    assert (a * a < (g - h) * (g - h)) by nra. assert (g * g <= b * b * (1 - e)).
    { unfold g. replace (b * (1 - e) * (b * (1 - e))) with (b * b * (1 - e) * (1 - e)) by ring. rewrite <- (Rmult_1_r (b * b * (1 - e))) at 2. apply Rmult_le_compat_l; [|lra]. apply Rmult_le_pos; [nra|lra]. }
    assert (h * h <= h * g) by nra. nra.
  - apply Rnot_lt_le. intros L. assert (c0 : b * (1 + e) + h < a) by lra. set (g := b * (1 + e)) in *. assert (0 <= g) by (unfold g; nra).
    assert ((g + h) * (g + h) < a * a) by nra. assert (b * b * (1 + e) <= g * g).
    { unfold g. replace (b * (1 + e) * (b * (1 + e))) with (b * b * (1 + e) * (1 + e)) by ring. rewrite <- (Rmult_1_r (b * b * (1 + e))) at 1. apply Rmult_le_compat_l; [|lra]. apply Rmult_le_pos; [nra|lra]. }
    assert (0 <= h * g) by nra. nra.
Qed.
Lemma norm3_sub p q : Rabs (norm3 p - norm3 q) <= norm3 (sub3 p q).
Proof.
  pose proof (norm3_triangle (sub3 p q) q) as H1. pose proof (norm3_triangle (sub3 q p) p) as H2.
  replace (add3 (sub3 p q) q) with p in H1 by (destruct p as [[? ?] ?], q as [[? ?] ?]; cbn; apply f_equal2; [apply f_equal2|]; ring).
  replace (add3 (sub3 q p) p) with q in H2 by (destruct p as [[? ?] ?], q as [[? ?] ?]; cbn; apply f_equal2; [apply f_equal2|]; ring).
  replace (norm3 (sub3 q p)) with (norm3 (sub3 p q)) in H2; [apply Rabs_le; lra|].
  unfold norm3. f_equal. destruct p as [[? ?] ?], q as [[? ?] ?]. cbn. ring.
Qed.
Lemma norm3_bnd b p : 0 <= b -> bnd b p -> norm3 p <= 1733/1000 * b.
Proof.
  destruct p as [[x y] z]. intros Hb (H0 & H1 & H2). unfold norm3. rewrite <- (sqrt_square (1733/1000 * b)) by lra. apply sqrt_le_1_alt. cbn [dot3].
  assert (S : forall w, Rabs w <= b -> w * w <= b * b). { intros w Hw. pose proof (Rabs_pos w). replace (w * w) with (Rabs w * Rabs w) by (unfold Rabs; destruct (Rcase_abs w); ring). nra. }
  pose proof (S _ H0). pose proof (S _ H1). pose proof (S _ H2). nra.
Qed.
Lemma cauchy_abs p q : Rabs (dot3 p q) <= norm3 p * norm3 q.
Proof.
  pose proof (cauchy p q) as H1. pose proof (cauchy (scale3 (-1) p) q) as H2.
  replace (dot3 (scale3 (-1) p) q) with (- dot3 p q) in H2 by (destruct p as [[? ?] ?], q as [[? ?] ?]; cbn; ring).
  replace (norm3 (scale3 (-1) p)) with (norm3 p) in H2; [apply Rabs_le; lra|].
  unfold norm3. f_equal. destruct p as [[? ?] ?]. cbn. ring.
Qed.

Section Figure.
Variables k D E : R.
Hypothesis Hk : 0 < k <= 1/1048576.
Hypothesis Hu : 40 * ulp1 <= k.
Hypothesis HE : E <= k * D.
Hypothesis HD : 1/1000 <= D <= 1000.
Let q1 : 1/100 <= 1 <= 1. Proof. lra. Qed.
Let u1 : ulp1 <= 1 * k. Proof. unfold ulp1 in *. lra. Qed.
Let s1 := D. Let s2 := D * D. Let s4 := (D * D) * (D * D).
Lemma s2_ok : 1/1000000 <= s2 <= 1000000. Proof. unfold s2. nra. Qed.
Lemma s4_ok : 1/1000000000000 <= s4 <= 1000000000000.
Proof.
  pose proof s2_ok. change s4 with (s2 * s2). replace (1/1000000000000) with (1/1000000 * (1/1000000)) by lra. replace 1000000000000 with (1000000 * 1000000) by lra.
  split; apply Rmult_le_compat; lra.
Qed.
Lemma S2' : size k s2. Proof. destruct (D_sizes k D Hu HD) as (_ & H & _). exact H. Qed.
Lemma S4' : size k s4.
Proof.
  pose proof eta_tiny as Et. pose proof eta_pos. pose proof big_1. pose proof s4_ok. unfold ulp1 in Hu, Et. unfold size. split; [lra|]. split; [|lra].
  assert (/ 9007199254740992 * (1/1000000000000) <= k * s4) by (apply Rmult_le_compat; lra). lra.
Qed.
Lemma ks2 : 1/100000000000000000000000 <= k * s2 /\ 0 < k * s2.
Proof.
  pose proof s2_ok. unfold ulp1 in Hu. assert (/ 9007199254740992 * (1/1000000) <= k * s2) by (apply Rmult_le_compat; lra). lra.
Qed.

(** The length of a computed vector of products. *)
Lemma G_norm x p : V k s2 17 x p -> bnd (2 * s2) p -> G k s2 (fsqrt Bnum (sq3 Bnum x)) (norm3 p) 50 /\ 0 <= norm3 p <= 35/10 * s2.
Proof.
  destruct x as [[x0 x1] x2], p as [[p0 p1] p2]. intros (X0 & X1 & X2) Bp. pose proof s2_ok as S2r. pose proof ks2 as (K1 & K2).
  assert (N0 : 0 <= norm3 (p0, p1, p2) <= 35/10 * s2) by (split; [apply norm3_pos|]; pose proof (norm3_bnd (2 * s2) _ ltac:(lra) Bp); lra). split; [|exact N0].
  cbn [bnd] in Bp. destruct Bp as (B0 & B1 & B2). destruct X0 as [F0 H0], X1 as [F1 H1], X2 as [F2 H2].
  pose proof eta_pos as Ep. assert (Et : eta <= 1/10000000000000000000000000000000000000000000000000000000000000000000000000000) by (pose proof eta_tiny as Z; unfold ulp1 in Z; lra).
  assert (K3 : k * s2 <= s2). { assert (k * s2 <= 1 * s2) by (apply Rmult_le_compat_r; lra). lra. }
  assert (Sq : forall x p, Bfin x = true -> Rabs (Bv x - p) <= 17 * (k * s2) -> Rabs p <= 2 * s2 ->
     Bfin (fabs Bnum (fmul Bnum x x)) = true /\ Rabs (Bv (fabs Bnum (fmul Bnum x x)) - Bv x * Bv x) <= ulp1 * (Bv x * Bv x) + eta /\ 0 <= Bv (fabs Bnum (fmul Bnum x x)) /\ 0 <= Bv x * Bv x <= 1000000000000000).
  { clear - S2r K3. intros x p Fx Hx Hp. assert (Bx : Rabs (Bv x) <= 19 * s2). { replace (Bv x) with (p + (Bv x - p)) by ring. eapply Rle_trans; [apply Rabs_triang|]. lra. }
    assert (Q : 0 <= Bv x * Bv x <= 1000000000000000). { pose proof (Rabs_pos (Bv x)). replace (Bv x * Bv x) with (Rabs (Bv x) * Rabs (Bv x)) by (unfold Rabs; destruct (Rcase_abs (Bv x)); ring). nra. }
    destruct (bmult_err x x Fx Fx) as [[Fm Hm] _]; [rewrite Rabs_pos_eq by lra; pose proof big_room; pose proof big_1; lra|].
    rewrite (Rabs_pos_eq (Bv x * Bv x)) in Hm by lra. split; [apply babs_fin; exact Fm|]. rewrite babs_val. split; [|split; [apply Rabs_pos|exact Q]].
    eapply Rle_trans; [|exact Hm]. rewrite <- (Rabs_pos_eq (Bv x * Bv x)) at 1 by lra. apply Rabs_triang_inv2. }
  destruct (Sq _ _ F0 H0 B0) as (Fa & Ha & Pa & Qa). destruct (Sq _ _ F1 H1 B1) as (Fb & Hb & Pb & Qb). destruct (Sq _ _ F2 H2 B2) as (Fc & Hc & Pc & Qc). clear Sq.
  cbn [sq3]. set (a := fabs Bnum (fmul Bnum x0 x0)) in *. set (b := fabs Bnum (fmul Bnum x1 x1)) in *. set (c := fabs Bnum (fmul Bnum x2 x2)) in *.
  set (A := Bv x0 * Bv x0) in *. set (B := Bv x1 * Bv x1) in *. set (C := Bv x2 * Bv x2) in *.
  assert (Ua : Bv a <= 2 * A + eta /\ Bv b <= 2 * B + eta /\ Bv c <= 2 * C + eta).
  { unfold Rabs, ulp1 in Ha, Hb, Hc. destruct (Rcase_abs _) in Ha; destruct (Rcase_abs _) in Hb; destruct (Rcase_abs _) in Hc; lra. }
  pose proof big_room as Br. pose proof big_1 as B1'.
  destruct (bplus_err a b Fa Fb) as [[Fab Hab] _]; [rewrite Rabs_pos_eq by lra; lra|]. rewrite (Rabs_pos_eq (Bv a + Bv b)) in Hab by lra.
  set (ab := fadd Bnum a b) in *.
  assert (Uab : 0 <= Bv ab + eta /\ Bv ab <= 2 * (Bv a + Bv b) + eta). { unfold Rabs, ulp1 in Hab. destruct (Rcase_abs _) in Hab; lra. }
  assert (Rnn : 0 <= Bv ab) by (apply bplus_pos; try assumption; lra).
  destruct (bplus_err ab c Fab Fc) as [[Fs Hs] _]; [rewrite Rabs_pos_eq by lra; lra|]. rewrite (Rabs_pos_eq (Bv ab + Bv c)) in Hs by lra.
  assert (Rns : 0 <= Bv (fadd Bnum ab c)) by (apply bplus_pos; try assumption; lra).
  set (S := fadd Bnum ab c) in *.
  assert (HS : Rabs (Bv S - (A + B + C)) <= 4 * ulp1 * (A + B + C) + 10 * eta).
  { apply Rabs_le. unfold Rabs, ulp1 in *. destruct (Rcase_abs _) in Ha; destruct (Rcase_abs _) in Hb; destruct (Rcase_abs _) in Hc; destruct (Rcase_abs _) in Hab; destruct (Rcase_abs _) in Hs; lra. }
  clear Ha Hb Hc Hab Hs Uab Ua.
  assert (Hq : Rabs (sqrt (Bv S) - sqrt (A + B + C)) <= 4 * ulp1 * sqrt (A + B + C) + 1/1000000000000000000000000000000).
  { apply sqrt_near; [lra|lra|unfold ulp1; lra|lra|]. eapply Rle_trans; [exact HS|]. lra. }
  destruct (bsqrt_err S Fs Rns) as [Fq Hr].
  assert (NA : sqrt (A + B + C) = norm3 (Bv x0, Bv x1, Bv x2)) by reflexivity.
  assert (Nd : Rabs (sqrt (A + B + C) - norm3 (p0, p1, p2)) <= 295/10 * (k * s2)).
  { rewrite NA. eapply Rle_trans; [apply norm3_sub|]. eapply Rle_trans; [apply (norm3_bnd (17 * (k * s2)))|lra]; [lra|]. cbn [sub3 bnd]. auto. }
  set (n := norm3 (p0, p1, p2)) in *. set (m := sqrt (A + B + C)) in *. set (r := sqrt (Bv S)) in *. clearbody n m r. clear NA.
  split; [exact Fq|].
  assert (Ub : ulp1 * s2 <= k * s2) by (apply Rmult_le_compat_r; lra). unfold ulp1 in Hq, Hr, Ub.
  assert (M : 0 <= m + 295/10 * (k * s2) /\ m <= 35/10 * s2 + 295/10 * (k * s2)) by (unfold Rabs in Nd; destruct (Rcase_abs _) in Nd; lra).
  assert (Kb : k * s2 <= 1/1048576 * s2) by (apply Rmult_le_compat_r; lra).
  assert (Rq : r <= 4 * s2) by (unfold Rabs in Hq; destruct (Rcase_abs _) in Hq; lra).
  apply Rabs_le. unfold Rabs in Nd, Hq, Hr. destruct (Rcase_abs _) in Nd; destruct (Rcase_abs _) in Hq; destruct (Rcase_abs _) in Hr; lra.
Qed.
Lemma G_area x y z a b c : P E x a -> P E y b -> P E z c -> apart_le D b a -> apart_le D c a ->
  G k s2 (area3 Bnum x y z) (tri_area a b c) 27 /\ 0 <= tri_area a b c <= 175/100 * s2.
Proof.
  intros X Y Z Ab Ac. destruct (V_diff k D E Hk Hu HE HD y x b a Y X Ab) as [V1 B1]. destruct (V_diff k D E Hk Hu HE HD z x c a Z X Ac) as [V2 B2].
  destruct (V_cross k D Hk Hu HD _ _ _ _ V2 B2 V1 B1) as [V3 B3]. destruct (G_norm _ _ V3 B3) as [Gn Bn].
  assert (Et : norm3 (cross3 (sub3 c a) (sub3 b a)) = norm3 (cross3 (sub3 b a) (sub3 c a))).
  { clear. unfold norm3. f_equal. destruct a as [[? ?] ?], b as [[? ?] ?], c as [[? ?] ?]. cbn. ring. }
  rewrite Et in Gn, Bn. unfold area3, tri_area. split; [|lra].
  apply (G_divZ k 1 Hk u1 q1 s2 _ _ 50 (35/10) 2 27 S2'); try assumption; try lra; try lia. rewrite Rabs_pos_eq; lra.
Qed.
Lemma in_tri_B x y z v a b c p : P E x a -> P E y b -> P E z c -> P E v p -> spread D [a; b; c; p] ->
  125 * (k * s2) <= 4/10000000 * tri_area a b c ->
  let X := tri_area a b c - tri_area p b c - tri_area a p c - tri_area a b p in
  (Rabs X <= 4/10000000 * tri_area a b c -> in_tri Bnum v x y z = true) /\ (16/10000000 * tri_area a b c <= Rabs X -> in_tri Bnum v x y z = false).
Proof.
  intros Px Py Pz Pv Sp Hv X.
  assert (I : forall r t, In r [a; b; c; p] -> In t [a; b; c; p] -> apart_le D r t) by exact Sp. cbn [In] in I.
  destruct (G_area x y z a b c Px Py Pz ltac:(apply I; tauto) ltac:(apply I; tauto)) as [G0 B0].
  destruct (G_area v y z p b c Pv Py Pz ltac:(apply I; tauto) ltac:(apply I; tauto)) as [G1 B1].
  destruct (G_area x v z a p c Px Pv Pz ltac:(apply I; tauto) ltac:(apply I; tauto)) as [G2 B2].
  destruct (G_area x y v a b p Px Py Pv ltac:(apply I; tauto) ltac:(apply I; tauto)) as [G3 B3].
  set (v0 := tri_area a b c) in *. set (v1 := tri_area p b c) in *. set (v2 := tri_area a p c) in *. set (v3 := tri_area a b p) in *.
  assert (Sp0 : 0 < s2) by (destruct S2' as [? _]; assumption).
  assert (T1 : G k s2 (fsub Bnum (area3 Bnum x y z) (area3 Bnum v y z)) (v0 - v1) 56).
  { apply (G_sub k 1 Hk u1 q1 s2 _ _ _ _ 27 27 (175/100) _ S2'); try assumption; try lra. apply Rabs_le. lra. }
  assert (T2 : G k s2 (fsub Bnum (fsub Bnum (area3 Bnum x y z) (area3 Bnum v y z)) (area3 Bnum x v z)) (v0 - v1 - v2) 87).
  { apply (G_sub k 1 Hk u1 q1 s2 _ _ _ _ 56 27 (35/10) _ S2'); try assumption; try lra. apply Rabs_le. lra. }
  assert (T3 : G k s2 (fsub Bnum (fsub Bnum (fsub Bnum (area3 Bnum x y z) (area3 Bnum v y z)) (area3 Bnum x v z)) (area3 Bnum x y v)) (v0 - v1 - v2 - v3) 120).
  { apply (G_sub k 1 Hk u1 q1 s2 _ _ _ _ 87 27 (525/100) _ S2'); try assumption; try lra. apply Rabs_le. lra. }
  fold X in T3. apply G_abs in T3. destruct T3 as [F4 H4]. set (Xf := fabs Bnum _) in F4, H4.
  assert (Y : Bfin (fmul Bnum (EPS Bnum) (area3 Bnum x y z)) = true /\ Rabs (Bv (fmul Bnum (EPS Bnum) (area3 Bnum x y z)) - 1/1000000 * v0) <= 1/10000000 * v0).
  { destruct EPS_B as [Fe He]. destruct G0 as [F0 H0]. destruct S2' as (_ & Et & Sb).
    set (e := EPS Bnum) in *. set (vf := area3 Bnum x y z) in *.
    assert (K3 : 0 < k * s2) by (apply Rmult_lt_0_compat; lra).
    assert (Dv : Rabs (Bv vf - v0) <= 1/10000000 * v0) by (eapply Rle_trans; [exact H0|]; lra).
    assert (Df : Rabs (Bv e * Bv vf - 1/1000000 * v0) <= 5/100000000 * v0).
    { replace (Bv e * Bv vf - 1/1000000 * v0) with ((Bv e - 1/1000000) * Bv vf + 1/1000000 * (Bv vf - v0)) by ring.
      assert (Rabs (Bv vf) <= 2 * v0). { replace (Bv vf) with (v0 + (Bv vf - v0)) by ring. eapply Rle_trans; [apply Rabs_triang|]. rewrite (Rabs_right v0) by lra. lra. }
      eapply Rle_trans; [apply Rabs_triang|]. rewrite !Rabs_mult. rewrite (Rabs_right (1/1000000)) by lra.
      assert (Rabs (Bv e - 1 / 1000000) * Rabs (Bv vf) <= 1/10000000000 * (2 * v0)) by (apply Rmult_le_compat; try apply Rabs_pos; assumption). lra. }
    assert (Ab : Rabs (Bv e * Bv vf) <= 2/1000000 * v0).
    { replace (Bv e * Bv vf) with (1/1000000 * v0 + (Bv e * Bv vf - 1/1000000 * v0)) by ring. eapply Rle_trans; [apply Rabs_triang|]. rewrite (Rabs_right (1/1000000 * v0)) by lra. lra. }
    destruct (bmult_err e vf Fe F0) as [[Fy Hy] _]; [pose proof big_room; pose proof big_1; lra|].
    split; [exact Fy|]. replace (Bv (fmul Bnum e vf) - 1/1000000 * v0) with ((Bv (fmul Bnum e vf) - Bv e * Bv vf) + (Bv e * Bv vf - 1/1000000 * v0)) by ring.
    eapply Rle_trans; [apply Rabs_triang|].
    assert (ulp1 * Rabs (Bv e * Bv vf) <= / 1000000 * Rabs (Bv e * Bv vf)) by (apply Rmult_le_compat_r; [apply Rabs_pos|unfold ulp1; lra]). lra. }
  destruct Y as [Fy Hy]. assert (K3 : 0 < k * s2) by (apply Rmult_lt_0_compat; lra). unfold in_tri. cbv zeta. fold Xf.
  assert (Hy' : 9/10000000 * v0 <= Bv (fmul Bnum (EPS Bnum) (area3 Bnum x y z)) <= 11/10000000 * v0) by (unfold Rabs in Hy; destruct (Rcase_abs _) in Hy; lra).
  assert (H4' : Rabs X - 4/10000000 * v0 <= Bv Xf <= Rabs X + 4/10000000 * v0) by (unfold Rabs at 1 in H4; destruct (Rcase_abs _) in H4; lra).
  split; intros HX; [apply blt_true|apply blt_false]; try assumption; lra.
Qed.

(** Inner products of differences and products of those. *)
Lemma G_dot2 x y p r : V k s1 (31/10) x p -> bnd D p -> V k s1 (31/10) y r -> bnd D r -> G k s2 (pdot Bnum x y) (dot3 p r) 28 /\ Rabs (dot3 p r) <= 3 * s2.
Proof.
  intros X A Y B. assert (K : 1/1000000 <= D * D) by nra. split.
  - apply (G_dot_gen k Hk Hu D D x y p r (31/10) (31/10) 1 1 28); try assumption; try lra; rewrite Rmult_1_l; assumption.
  - destruct p as [[p0 p1] p2], r as [[r0 r1] r2]. cbn [bnd dot3] in *. destruct A as (A0 & A1 & A2), B as (B0 & B1 & B2).
    assert (Q : forall x y, Rabs x <= D -> Rabs y <= D -> Rabs (x * y) <= s2) by (intros ? ? ? ?; rewrite Rabs_mult; apply Rmult_le_compat; try apply Rabs_pos; assumption).
    eapply sum3_le; [apply Q; eassumption|apply Q; eassumption|apply Q; eassumption|lra].
Qed.
Lemma G_prod4 x y z w r t m n : G k s2 x r 28 /\ Rabs r <= 3 * s2 -> G k s2 y t 28 /\ Rabs t <= 3 * s2 -> G k s2 z m 28 /\ Rabs m <= 3 * s2 -> G k s2 w n 28 /\ Rabs n <= 3 * s2 ->
  G k s4 (fsub Bnum (fmul Bnum x y) (fmul Bnum z w)) (r * t - m * n) 375 /\ Rabs (r * t - m * n) <= 18 * s4.
Proof.
  assert (Q : forall x y r t, G k s2 x r 28 /\ Rabs r <= 3 * s2 -> G k s2 y t 28 /\ Rabs t <= 3 * s2 -> G k s4 (fmul Bnum x y) (r * t) 178 /\ Rabs (r * t) <= 9 * s4).
  { clear x y z w r t m n. intros x y r t [Gx Bx] [Gy By]. pose proof s2_ok. split.
    - apply (G_mul k 1 Hk u1 q1 s2 s2 _ _ _ _ 28 28 3 3 _ S4'); try assumption; lra.
    - rewrite Rabs_mult. change s4 with (s2 * s2). replace (9 * (s2 * s2)) with ((3 * s2) * (3 * s2)) by ring. apply Rmult_le_compat; try apply Rabs_pos; assumption. }
  intros X Y Z W. destruct (Q _ _ _ _ X Y) as [G1 B1]. destruct (Q _ _ _ _ Z W) as [G2 B2].
  assert (Bd : Rabs (r * t - m * n) <= 18 * s4) by (eapply Rle_trans; [apply (tri2m _ _ _ _ B1 B2)|lra]). split; [|exact Bd].
  apply (G_sub k 1 Hk u1 q1 s4 _ _ _ _ 178 178 18 _ S4'); try assumption; lra.
Qed.
Lemma quot_B x y n d g e : Bfin x = true -> Bfin y = true -> Rabs (Bv x - n) <= g -> Rabs (Bv y - d) <= g -> 0 < Rabs d -> g <= e * Rabs d -> ulp1 <= e / 20 -> e <= 1/1000000 -> Rabs (n / d) <= 1000000000000 ->
  Bfin (fdiv Bnum x y) = true /\ Rabs (Bv (fdiv Bnum x y) - n / d) <= 11/10 * e * (1 + Rabs (n / d)).
Proof.
  clear. intros Fx Fy Hx Hy Dp Hg Ue He Q. assert (Up : 0 < ulp1) by (unfold ulp1; lra).
  assert (Dn : d <> 0) by (intros E0; rewrite E0, Rabs_R0 in Dp; lra).
  assert (Ey : Rabs (Bv y - d) <= 1/1000000 * Rabs d). { assert (e * Rabs d <= 1/1000000 * Rabs d) by (apply Rmult_le_compat_r; lra). lra. }
  assert (Ly : 999999/1000000 * Rabs d <= Rabs (Bv y)).
  { replace (Bv y) with (d - (d - Bv y)) by ring. pose proof (Rabs_triang_inv d (d - Bv y)). rewrite (Rabs_minus_sym d) in H. lra. }
  assert (Yn : Bv y <> 0) by (intros E0; rewrite E0, Rabs_R0 in Ly; lra).
  pose proof (Rabs_pos (n / d)) as Q0.
  assert (Dq : Rabs (Bv x / Bv y - n / d) <= 1001/1000 * e * (1 + Rabs (n / d))).
  { replace (Bv x / Bv y - n / d) with (((Bv x - n) - n / d * (Bv y - d)) * / Bv y) by (field; split; assumption).
    rewrite Rabs_mult, Rabs_inv. apply (Rmult_le_reg_r (Rabs (Bv y))); [lra|]. rewrite Rmult_assoc, Rinv_l by lra. rewrite Rmult_1_r.
    apply Rle_trans with (e * Rabs d * (1 + Rabs (n / d))).
    - unfold Rminus at 1. eapply Rle_trans; [apply Rabs_triang|]. rewrite Rabs_Ropp, Rabs_mult.
      assert (Rabs (n / d) * Rabs (Bv y - d) <= Rabs (n / d) * (e * Rabs d)) by (apply Rmult_le_compat_l; lra). lra.
    - assert (0 <= e * (1001/1000 * Rabs (Bv y) - Rabs d) * (1 + Rabs (n / d))) by (repeat apply Rmult_le_pos; lra). lra. }
  assert (Ep : 1001/1000 * e * (1 + Rabs (n / d)) <= 1/100 * (1 + Rabs (n / d))) by (apply Rmult_le_compat_r; lra).
  assert (Bq : Rabs (Bv x / Bv y) <= 1 + 102/100 * Rabs (n / d)).
  { replace (Bv x / Bv y) with (n / d + (Bv x / Bv y - n / d)) by ring. eapply Rle_trans; [apply Rabs_triang|]. lra. }
  destruct (bdiv_err x y Fx Fy Yn) as [[Fz Hz] _]; [pose proof p500; lra|]. split; [exact Fz|].
  replace (Bv (fdiv Bnum x y) - n / d) with ((Bv (fdiv Bnum x y) - Bv x / Bv y) + (Bv x / Bv y - n / d)) by ring.
  eapply Rle_trans; [apply Rabs_triang|].
  assert (U1 : ulp1 * Rabs (Bv x / Bv y) <= e / 20 * (1 + 102/100 * Rabs (n / d))) by (apply Rmult_le_compat; try lra; apply Rabs_pos).
  assert (Et : eta <= e / 1000). { pose proof eta_lt. unfold ulp1 in Ue. lra. }
  assert (0 <= e * Rabs (n / d)) by (apply Rmult_le_pos; lra). lra.
Qed.
Lemma cross_sq p r : dot3 p r * dot3 r p - dot3 p p * dot3 r r = - dot3 (cross3 p r) (cross3 p r).
Proof. destruct p as [[? ?] ?], r as [[? ?] ?]. cbn. ring. Qed.

(** The crossing test of two segments. *)
Lemma seg_seg_B x y z w a b c d : P E x a -> P E y b -> P E z c -> P E w d -> spread D [a; b; c; d] ->
  let T := dot3 (cross3 (sub3 b a) (sub3 d c)) (cross3 (sub3 b a) (sub3 d c)) in
  (T + 375 * (k * s4) <= 9/10000000 -> seg_seg Bnum x y z w = false) /\
  (0 < T -> k * s4 * D <= 23/100000000000 * (T * norm3 (sub3 d c)) -> forall s t, add3 a (scale3 s (sub3 b a)) = add3 c (scale3 t (sub3 d c)) ->
    (seg_seg Bnum x y z w = true -> - (1/1000000) <= s <= 1 + 1/1000000 /\ - (1/1000000) <= t <= 1 + 1/1000000) /\
    (D <= 100 -> 12/10000000 <= T -> 1/1000000 <= s <= 1 - 1/1000000 -> 1/1000000 <= t <= 1 - 1/1000000 -> seg_seg Bnum x y z w = true)).
Proof.
  intros Px Py Pz Pw Sp T. assert (I : forall r t, In r [a; b; c; d] -> In t [a; b; c; d] -> apart_le D r t) by exact Sp. cbn [In] in I.
  destruct (V_diff k D E Hk Hu HE HD y x b a Py Px ltac:(apply I; tauto)) as [VAB BAB]. destruct (V_diff k D E Hk Hu HE HD w z d c Pw Pz ltac:(apply I; tauto)) as [VCD BCD].
  destruct (V_diff k D E Hk Hu HE HD z x c a Pz Px ltac:(apply I; tauto)) as [VAC BAC].
  pose proof (G_dot2 _ _ _ _ VAC BAC VCD BCD) as GACCD. pose proof (G_dot2 _ _ _ _ VCD BCD VAB BAB) as GCDAB. pose proof (G_dot2 _ _ _ _ VCD BCD VCD BCD) as GCDCD.
  pose proof (G_dot2 _ _ _ _ VAC BAC VAB BAB) as GACAB. pose proof (G_dot2 _ _ _ _ VAB BAB VCD BCD) as GABCD. pose proof (G_dot2 _ _ _ _ VAB BAB VAB BAB) as GABAB.
  destruct (G_prod4 _ _ _ _ _ _ _ _ GACCD GCDAB GCDCD GACAB) as [GT1 BT1]. destruct (G_prod4 _ _ _ _ _ _ _ _ GABCD GCDAB GABAB GCDCD) as [GT2 BT2].
  unfold seg_seg. cbv zeta. set (AB := psub Bnum y x) in *. set (AC := psub Bnum z x) in *. set (CD := psub Bnum w z) in *.
  rewrite cross_sq in GT2, BT2. fold T in GT2, BT2. rewrite Rabs_Ropp in BT2. assert (T0 : 0 <= T) by apply dot3_self_pos. rewrite (Rabs_pos_eq T T0) in BT2.
  set (t1 := fsub Bnum (fmul Bnum (pdot Bnum AC CD) (pdot Bnum CD AB)) (fmul Bnum (pdot Bnum CD CD) (pdot Bnum AC AB))) in *.
  set (t2 := fsub Bnum (fmul Bnum (pdot Bnum AB CD) (pdot Bnum CD AB)) (fmul Bnum (pdot Bnum AB AB) (pdot Bnum CD CD))) in *.
  destruct EPS_B as [Fe He]. assert (Ep : 999/1000000000 <= Bv (EPS Bnum) <= 1001/1000000000) by (unfold Rabs in He; destruct (Rcase_abs _) in He; lra).
  set (eps := EPS Bnum) in *. clearbody eps. clear He.
  assert (GK := G_abs _ _ _ _ _ GT2). rewrite Rabs_Ropp, (Rabs_pos_eq T T0) in GK. destruct GK as [FK HK].
  assert (Bk : T - 375 * (k * s4) <= Bv (fabs Bnum t2) <= T + 375 * (k * s4)) by (unfold Rabs in HK; destruct (Rcase_abs _) in HK; lra).
  clear HK. split.
  { intros Hs. rewrite (blt_true _ eps FK Fe) by lra. reflexivity. }
  intros Tp Cond s t Sol. pose proof s2_ok as S2r. pose proof s4_ok as S4r.
  assert (K4 : 0 < k * s4) by (apply Rmult_lt_0_compat; lra). assert (K2 : 0 < k * s2) by (apply Rmult_lt_0_compat; lra).
  (* the exact solution *)
  assert (Es : dot3 (sub3 c a) (sub3 d c) * dot3 (sub3 d c) (sub3 b a) - dot3 (sub3 d c) (sub3 d c) * dot3 (sub3 c a) (sub3 b a) = s * - T /\
    - dot3 (sub3 c a) (sub3 d c) + s * dot3 (sub3 b a) (sub3 d c) = t * dot3 (sub3 d c) (sub3 d c)).
  { assert (Ac : sub3 c a = sub3 (scale3 s (sub3 b a)) (scale3 t (sub3 d c))).
    { clear - Sol. destruct a as [[a0 a1] a2], b as [[b0 b1] b2], c as [[c0 c1] c2], d as [[d0 d1] d2]. cbn in *. injection Sol as H0 H1 H2. apply f_equal2; [apply f_equal2|]; lra. }
    rewrite Ac. unfold T. rewrite <- cross_sq. generalize (sub3 b a) (sub3 d c). clear. intros [[? ?] ?] [[? ?] ?]. cbn. split; ring. }
  destruct Es as [Es Et].
  (* sizes *)
  set (r := norm3 (sub3 d c)) in *. set (q := dot3 (sub3 d c) (sub3 d c)) in *. assert (Rq : r * r = q) by apply norm3_sq.
  assert (R0 : 0 <= r) by apply norm3_pos. assert (R1 : r <= 1733/1000 * D) by (apply norm3_bnd; [lra|exact BCD]).
  assert (N1 : norm3 (sub3 b a) <= 1733/1000 * D) by (apply norm3_bnd; [lra|exact BAB]).
  assert (CB : Rabs (dot3 (sub3 b a) (sub3 d c)) <= 1733/1000 * D * r).
  { eapply Rle_trans; [apply cauchy_abs|]. fold r. apply Rmult_le_compat_r; assumption. }
  assert (TB : T <= 31/10 * s2 * q).
  { pose proof (cross_sq (sub3 b a) (sub3 d c)) as L. fold T q in L. rewrite <- (norm3_sq (sub3 b a)) in L.
    assert (dot3 (sub3 b a) (sub3 d c) * dot3 (sub3 d c) (sub3 b a) >= 0).
    { replace (dot3 (sub3 d c) (sub3 b a)) with (dot3 (sub3 b a) (sub3 d c)) by (clear; destruct (sub3 b a) as [[? ?] ?], (sub3 d c) as [[? ?] ?]; cbn; ring). nra. }
    assert (Nn : norm3 (sub3 b a) * norm3 (sub3 b a) <= 31/10 * s2) by (pose proof (norm3_pos (sub3 b a)); unfold s2; nra).
    assert (0 <= q) by (rewrite <- Rq; nra). assert (norm3 (sub3 b a) * norm3 (sub3 b a) * q <= 31/10 * s2 * q) by (apply Rmult_le_compat_r; lra). lra. }
  assert (Q0 : 0 < q). { apply Rnot_le_lt. intros L. assert (31/10 * s2 * q <= 0) by nra. lra. }
  assert (Rp : 0 < r) by nra.
  set (et := 375 * (k * s4) / T). assert (Et0 : et * T = 375 * (k * s4)) by (unfold et; field; lra).
  assert (Ed : et * D <= 8625/100000000000 * r).
  { apply (Rmult_le_reg_r T); [exact Tp|]. replace (et * D * T) with (et * T * D) by ring. rewrite Et0. lra. }
  assert (Etp : 0 < et) by (unfold et; apply Rdiv_lt_0_compat; lra).
  assert (Ets : et <= 15/100000000).
  { apply (Rmult_le_reg_r D); [lra|]. nra. }
  assert (Kq : k * s2 <= 124/100000000000 * q).
  { apply (Rmult_le_reg_r (s2 * D)); [apply Rmult_lt_0_compat; lra|]. replace (k * s2 * (s2 * D)) with (k * s4 * D) by (unfold s4, s2; ring).
    eapply Rle_trans; [exact Cond|]. assert (T * r <= (31/10 * s2 * q) * (1733/1000 * D)) by (apply Rmult_le_compat; lra). nra. }
  assert (Ku : k <= et / 20). { apply (Rmult_le_reg_r T); [exact Tp|]. replace (et / 20 * T) with (et * T / 20) by field. rewrite Et0. assert (k * T <= k * (18 * s4)) by (apply Rmult_le_compat_l; lra). lra. }
  assert (K9 : k <= 1/100000000) by lra.
  (* s *)
  destruct GT1 as [F1 H1]. destruct GT2 as [F2 H2].
  assert (Sd : (s * - T) / - T = s) by (field; lra).
  assert (Sb : Rabs s <= 1000000000000).
  { rewrite <- Sd, <- Es. unfold Rdiv. rewrite Rabs_mult, Rabs_inv, Rabs_Ropp, (Rabs_pos_eq T T0). apply (Rmult_le_reg_r T); [exact Tp|]. rewrite Rmult_assoc, Rinv_l, Rmult_1_r by lra.
    eapply Rle_trans; [exact BT1|]. assert (375 * (k * s4) <= 15/100000000 * T) by (rewrite <- Et0; apply Rmult_le_compat_r; lra).
    assert (ulp1 * s4 <= k * s4) by (apply Rmult_le_compat_r; lra). unfold ulp1 in H0. lra. }
  rewrite Es in H1. destruct (quot_B t1 t2 (s * - T) (- T) (375 * (k * s4)) et F1 F2 H1 H2) as [Fs Hs].
  { rewrite Rabs_Ropp, Rabs_pos_eq; lra. } { rewrite Rabs_Ropp, Rabs_pos_eq by lra. rewrite Et0. lra. } { lra. } { lra. } { rewrite Sd. exact Sb. }
  rewrite Sd in Hs. set (sf := fdiv Bnum t1 t2) in *. clearbody sf.
  (* t *)
  destruct GACCD as [[Fac Hac] Bac]. destruct GABCD as [[Fab Hab] Bab]. destruct GCDCD as [[Fcd Hcd] Bcd]. fold q in Hcd, Bcd.
  set (accd := pdot Bnum AC CD) in *. set (abcd := pdot Bnum AB CD) in *. set (cdcd := pdot Bnum CD CD) in *.
  set (X := dot3 (sub3 b a) (sub3 d c)) in *. set (Y := dot3 (sub3 c a) (sub3 d c)) in *.
  assert (Tt : 0 <= Bv sf <= 1 -> Rabs s <= 1001/1000 /\ Rabs (Bv sf - s) <= 2203/1000 * et /\
     Bfin (fdiv Bnum (fadd Bnum (fneg Bnum accd) (fmul Bnum sf abcd)) cdcd) = true /\
     (Rabs t <= 1000000000 -> Rabs (Bv (fdiv Bnum (fadd Bnum (fneg Bnum accd) (fmul Bnum sf abcd)) cdcd) - t) <= 462/1000000000 * (1 + Rabs t)) /\ Rabs t <= 1000000000).
  { intros Sf. assert (As : Rabs s <= 1001/1000 /\ Rabs (Bv sf - s) <= 2203/1000 * et).
    { assert (L1 : Rabs s <= 1001/1000).
      { assert (Rabs s <= 1 + 11/10 * et * (1 + Rabs s)).
        { assert (A1 : Rabs (Bv sf) <= 1) by (apply Rabs_le; lra). replace s with (Bv sf - (Bv sf - s)) at 1 by ring. eapply Rle_trans; [apply (tri2m _ _ _ _ A1 Hs)|lra]. }
        assert (11/10 * et * (1 + Rabs s) <= 11/10 * (15/100000000) * (1 + Rabs s)) by (apply Rmult_le_compat_r; [pose proof (Rabs_pos s)|]; lra). lra. }
      split; [exact L1|]. eapply Rle_trans; [exact Hs|]. assert (11/10 * et * (1 + Rabs s) <= 11/10 * et * (2001/1000)) by (apply Rmult_le_compat_l; lra). lra. }
    destruct As as [As Ds]. split; [exact As|]. split; [exact Ds|].
    assert (Babf : Rabs (Bv abcd) <= 1733/1000 * D * r + 28 * (k * s2)). { replace (Bv abcd) with (X + (Bv abcd - X)) by ring. eapply Rle_trans; [apply Rabs_triang|]. lra. }
    assert (Babf' : Rabs (Bv abcd) <= 4 * s2). { replace (Bv abcd) with (X + (Bv abcd - X)) by ring. eapply Rle_trans; [apply Rabs_triang|]. assert (k * s2 <= 1/100000000 * s2) by (apply Rmult_le_compat_r; lra). lra. }
    assert (Bp : Rabs (Bv sf * Bv abcd) <= 4 * s2). { rewrite Rabs_mult, (Rabs_pos_eq (Bv sf)) by lra. pose proof (Rabs_pos (Bv abcd)). nra. }
    pose proof big_room as Br. pose proof big_1 as B1'. pose proof eta_tiny as Et1. pose proof eta_pos.
    assert (Uk : ulp1 * s2 <= k * s2) by (apply Rmult_le_compat_r; lra).
    destruct (bmult_err sf abcd Fs Fab) as [[Fm Hm] _]; [lra|].
    assert (Em : Rabs (Bv (fmul Bnum sf abcd) - s * X) <= 2203/1000 * et * (1733/1000 * D * r) + 34 * (k * s2)).
    { replace (Bv (fmul Bnum sf abcd) - s * X) with ((Bv (fmul Bnum sf abcd) - Bv sf * Bv abcd) + ((Bv sf - s) * Bv abcd + s * (Bv abcd - X))) by ring.
      eapply Rle_trans; [apply (tri2 _ _ _ _ (Rle_refl _) (Rabs_triang _ _))|]. rewrite !Rabs_mult.
      assert (Rabs (Bv sf - s) * Rabs (Bv abcd) <= (2203/1000 * et) * (1733/1000 * D * r + 28 * (k * s2))) by (apply Rmult_le_compat; try apply Rabs_pos; assumption).
      assert (Rabs s * Rabs (Bv abcd - X) <= 1001/1000 * (28 * (k * s2))) by (apply Rmult_le_compat; try apply Rabs_pos; assumption).
      assert (2203/1000 * et * (28 * (k * s2)) <= 1/10 * (k * s2)). { replace (2203/1000 * et * (28 * (k * s2))) with ((2203/1000 * 28 * et) * (k * s2)) by ring. apply Rmult_le_compat_r; lra. }
      assert (ulp1 * Rabs (Bv sf * Bv abcd) <= ulp1 * (4 * s2)) by (apply Rmult_le_compat_l; [unfold ulp1; lra|exact Bp]).
      assert (eta <= 1/10 * (k * s2)). { pose proof ks2 as [Z _]. unfold ulp1 in Et1. lra. }
      lra. }
    set (m := fmul Bnum sf abcd) in *. clearbody m.
    assert (Bm : Rabs (- Y + s * X) <= 7 * s2).
    { eapply Rle_trans; [apply Rabs_triang|]. rewrite Rabs_Ropp, Rabs_mult. assert (Rabs s * Rabs X <= 1001/1000 * (3 * s2)) by (apply Rmult_le_compat; try apply Rabs_pos; assumption). lra. }
    assert (W1 : et * (D * r) <= 8625/100000000000 * q). { rewrite <- Rq. replace (et * (D * r)) with (et * D * r) by ring. replace (8625/100000000000 * (r * r)) with (8625/100000000000 * r * r) by ring. apply Rmult_le_compat_r; lra. }
    assert (Dn : Rabs (- Bv accd + Bv m - (- Y + s * X)) <= 2203/1000 * et * (1733/1000 * D * r) + 62 * (k * s2)).
    { replace (- Bv accd + Bv m - (- Y + s * X)) with (- (Bv accd - Y) + (Bv m - s * X)) by ring. eapply Rle_trans; [apply Rabs_triang|]. rewrite Rabs_Ropp. lra. }
    assert (Qs : q <= 3 * s2) by (rewrite Rabs_pos_eq in Bcd; lra).
    assert (Bn : Rabs (- Bv accd + Bv m) <= 8 * s2).
    { replace (- Bv accd + Bv m) with ((- Y + s * X) + (- Bv accd + Bv m - (- Y + s * X))) by ring. eapply Rle_trans; [apply Rabs_triang|]. lra. }
    destruct (bplus_err (fneg Bnum accd) m (bneg_fin _ Fac) Fm) as [[Fn Hn] _]; rewrite bneg_val in *; [lra|].
    set (nm := fadd Bnum (fneg Bnum accd) m) in *. clearbody nm.
    assert (En : Rabs (Bv nm - t * q) <= 42/100000000 * Rabs q).
    { rewrite (Rabs_pos_eq q) by lra. rewrite <- Et. replace (Bv nm - (- Y + s * X)) with ((Bv nm - (- Bv accd + Bv m)) + (- Bv accd + Bv m - (- Y + s * X))) by ring.
      eapply Rle_trans; [apply Rabs_triang|]. assert (ulp1 * Rabs (- Bv accd + Bv m) <= ulp1 * (8 * s2)) by (apply Rmult_le_compat_l; [unfold ulp1; lra|exact Bn]).
      assert (eta <= 1/10 * (k * s2)). { pose proof ks2 as [Z _]. unfold ulp1 in Et1. lra. }
      lra. }
    assert (Dc : Rabs (Bv cdcd - q) <= 42/100000000 * Rabs q) by (rewrite (Rabs_pos_eq q); lra).
    assert (Tq : t * q / q = t) by (field; lra).
    assert (Bt : Rabs t <= 1000000000).
    { apply (Rmult_le_reg_r q); [exact Q0|]. rewrite <- (Rabs_pos_eq q) at 1 by lra. rewrite <- Rabs_mult, <- Et. eapply Rle_trans; [exact Bm|]. unfold ulp1 in Uk. lra. }
    destruct (quot_B nm cdcd (t * q) q _ (42/100000000) Fn Fcd En Dc) as [Fq Hq].
    { rewrite Rabs_pos_eq; lra. } { apply Rle_refl. } { unfold ulp1; lra. } { lra. } { rewrite Tq. lra. }
    rewrite Tq in Hq. split; [exact Fq|]. split; [intros _; eapply Rle_trans; [exact Hq|]; apply Rmult_le_compat_r; [pose proof (Rabs_pos t); lra|lra]|exact Bt]. }
  destruct (apx_Z 0) as [[Fz _] Vz]; [lia|]. destruct (apx_Z 1) as [[Fo _] Vo]; [lia|].
  set (zero := fZ Bnum 0) in *. set (one := fZ Bnum 1) in *. clearbody zero one.
  split.
  - intros H. destruct (flt Bnum (fabs Bnum t2) eps); [discriminate H|].
    destruct (fle Bnum zero sf) eqn:C1; [|discriminate H]. destruct (fle Bnum sf one) eqn:C2; [|discriminate H]. apply ble_spec in C1, C2; try assumption. rewrite Vz in C1. rewrite Vo in C2.
    destruct (Tt (conj C1 C2)) as (As & Ds & Ft & Ht & Bt). set (tf := fdiv Bnum (fadd Bnum (fneg Bnum accd) (fmul Bnum sf abcd)) cdcd) in *. specialize (Ht Bt).
    cbn [andb] in H. destruct (fle Bnum zero tf) eqn:C3; [|discriminate H]. destruct (fle Bnum tf one) eqn:C4; [|discriminate H]. apply ble_spec in C3, C4; try assumption. rewrite Vz in C3. rewrite Vo in C4.
    clear - Ds Ht C1 C2 C3 C4 Ets. split.
    + unfold Rabs in Ds. destruct (Rcase_abs _) in Ds; lra.
    + unfold Rabs in Ht. destruct (Rcase_abs t) in Ht; destruct (Rcase_abs _) in Ht; lra.
  - intros D100 Tb S0 T0'. rewrite (blt_false (fabs Bnum t2) eps FK Fe).
    2:{ assert (375 * (k * s4) <= 15/100000000 * T) by (rewrite <- Et0; apply Rmult_le_compat_r; lra). lra. }
    assert (Sf : 0 <= Bv sf <= 1).
    { rewrite (Rabs_pos_eq s) in Hs by lra. assert (11/10 * et * (1 + s) <= 11/10 * (15/100000000) * 2) by (apply Rmult_le_compat; lra). unfold Rabs in Hs. destruct (Rcase_abs _) in Hs; lra. }
    destruct (Tt Sf) as (As & Ds & Ft & Ht & Bt). set (tf := fdiv Bnum (fadd Bnum (fneg Bnum accd) (fmul Bnum sf abcd)) cdcd) in *. specialize (Ht Bt). clear Tt.
    rewrite (Rabs_pos_eq t) in Ht by lra. assert (Dt : Rabs (Bv tf - t) <= 93/100000000) by lra.
    assert (Tf : 0 <= Bv tf <= 1) by (unfold Rabs in Dt; destruct (Rcase_abs _) in Dt; lra).
    rewrite (ble_true zero sf), (ble_true sf one), (ble_true zero tf), (ble_true tf one) by (assumption || lra). cbn [andb].
    assert (Ds' : Rabs (Bv sf - s) <= 34/100000000) by lra.
    clear - Ds' Dt Sf Tf Fs Ft Hk Hu HD D100 K9 VAB VAC VCD BAB BAC BCD Sol S0 T0' Fe Ep Fz Vz.
    (* the gap *)
    assert (Gap : forall u v p ac ab cd, G k D u ac (31/10) -> G k D v ab (31/10) -> G k D p cd (31/10) -> Rabs ac <= D -> Rabs ab <= D -> Rabs cd <= D -> ac = s * ab - t * cd ->
      let x := fadd Bnum (fsub Bnum u (fmul Bnum sf v)) (fmul Bnum tf p) in Bfin (fmul Bnum x x) = true /\ 0 <= Bv (fmul Bnum x x) <= 1/10000000).
    { intros u v p ac ab cd [Fu Hu'] [Fv Hv] [Fp Hp] Bac Bab Bcd Eq. pose proof eta_lt as El. pose proof p500 as P5. pose proof eta_pos.
      assert (Kd : k * D <= 1/1000000) by nra. assert (Up : 0 < ulp1 <= 1/1000000000) by (unfold ulp1; lra).
      assert (M : forall f gg rr ww, Bfin f = true -> Bfin gg = true -> 0 <= Bv f <= 1 -> Rabs (Bv f - rr) <= 93/100000000 -> 0 <= rr <= 1 -> Rabs (Bv gg - ww) <= 31/10 * (k * D) -> Rabs ww <= D ->
        Bfin (fmul Bnum f gg) = true /\ Rabs (Bv (fmul Bnum f gg) - rr * ww) <= 1/10000).
      { intros f gg rr ww Ff Fg Vf Hf Hr Hg Hw. assert (Bg : Rabs (Bv gg) <= 101). { replace (Bv gg) with (ww + (Bv gg - ww)) by ring. eapply Rle_trans; [apply Rabs_triang|]. lra. }
        assert (Bfg : Rabs (Bv f * Bv gg) <= 101). { rewrite Rabs_mult, (Rabs_pos_eq (Bv f)) by lra. pose proof (Rabs_pos (Bv gg)). nra. }
        destruct (bmult_err f gg Ff Fg) as [[Fm Hm] _]; [lra|]. split; [exact Fm|].
        replace (Bv (fmul Bnum f gg) - rr * ww) with ((Bv (fmul Bnum f gg) - Bv f * Bv gg) + ((Bv f - rr) * Bv gg + rr * (Bv gg - ww))) by ring.
        eapply Rle_trans; [apply (tri2 _ _ _ _ (Rle_refl _) (Rabs_triang _ _))|]. rewrite !Rabs_mult. rewrite (Rabs_pos_eq rr) by lra.
        assert (Rabs (Bv f - rr) * Rabs (Bv gg) <= 93/100000000 * 101) by (apply Rmult_le_compat; try apply Rabs_pos; assumption).
        assert (rr * Rabs (Bv gg - ww) <= 1 * (31/10 * (k * D))) by (apply Rmult_le_compat; try apply Rabs_pos; lra).
        assert (ulp1 * Rabs (Bv f * Bv gg) <= 1/1000000000 * 101) by (apply Rmult_le_compat; try apply Rabs_pos; lra). lra. }
      destruct (M sf v s ab Fs Fv Sf ltac:(lra) ltac:(lra) Hv Bab) as [Fm1 Hm1]. destruct (M tf p t cd Ft Fp Tf Dt ltac:(lra) Hp Bcd) as [Fm2 Hm2]. clear M.
      assert (Bsab : Rabs (s * ab) <= 100). { rewrite Rabs_mult, (Rabs_pos_eq s) by lra. pose proof (Rabs_pos ab). nra. }
      assert (Btcd : Rabs (t * cd) <= 100). { rewrite Rabs_mult, (Rabs_pos_eq t) by lra. pose proof (Rabs_pos cd). nra. }
      assert (D1 : Rabs (Bv u - Bv (fmul Bnum sf v) - (ac - s * ab)) <= 11/100000).
      { replace (Bv u - Bv (fmul Bnum sf v) - (ac - s * ab)) with ((Bv u - ac) - (Bv (fmul Bnum sf v) - s * ab)) by ring. eapply Rle_trans; [apply (tri2m _ _ _ _ Hu' Hm1)|]. lra. }
      assert (B1 : Rabs (Bv u - Bv (fmul Bnum sf v)) <= 101).
      { replace (Bv u - Bv (fmul Bnum sf v)) with (- (t * cd) + (Bv u - Bv (fmul Bnum sf v) - (ac - s * ab))) by (rewrite Eq; ring). eapply Rle_trans; [apply Rabs_triang|]. rewrite Rabs_Ropp. lra. }
      destruct (bminus_err u _ Fu Fm1) as [[Fd Hd] _]; [lra|]. set (df := fsub Bnum u (fmul Bnum sf v)) in *.
      assert (Hd' : Rabs (Bv df - (ac - s * ab)) <= 12/100000).
      { replace (Bv df - (ac - s * ab)) with ((Bv df - (Bv u - Bv (fmul Bnum sf v))) + (Bv u - Bv (fmul Bnum sf v) - (ac - s * ab))) by ring. eapply Rle_trans; [apply Rabs_triang|].
        assert (ulp1 * Rabs (Bv u - Bv (fmul Bnum sf v)) <= 1/1000000000 * 101) by (apply Rmult_le_compat; try apply Rabs_pos; lra). lra. }
      assert (D2 : Rabs (Bv df + Bv (fmul Bnum tf p)) <= 23/100000).
      { replace (Bv df + Bv (fmul Bnum tf p)) with ((Bv df - (ac - s * ab)) + (Bv (fmul Bnum tf p) - t * cd)) by (rewrite Eq; ring). eapply Rle_trans; [apply (tri2 _ _ _ _ Hd' Hm2)|]. lra. }
      destruct (bplus_err df _ Fd Fm2) as [[Fx Hx] _]; [lra|]. cbv zeta. set (xx := fadd Bnum df (fmul Bnum tf p)) in *.
      assert (Bx : Rabs (Bv xx) <= 24/100000).
      { replace (Bv xx) with ((Bv df + Bv (fmul Bnum tf p)) + (Bv xx - (Bv df + Bv (fmul Bnum tf p)))) by ring. eapply Rle_trans; [apply Rabs_triang|].
        assert (ulp1 * Rabs (Bv df + Bv (fmul Bnum tf p)) <= 1/1000000000 * (23/100000)) by (apply Rmult_le_compat; try apply Rabs_pos; lra). lra. }
      assert (Qx : 0 <= Bv xx * Bv xx <= 6/100000000). { pose proof (Rabs_pos (Bv xx)). replace (Bv xx * Bv xx) with (Rabs (Bv xx) * Rabs (Bv xx)) by (unfold Rabs; destruct (Rcase_abs (Bv xx)); ring). nra. }
      destruct (bmult_err xx xx Fx Fx) as [[Fxx Hxx] _]; [rewrite Rabs_pos_eq by lra; lra|]. rewrite (Rabs_pos_eq (Bv xx * Bv xx)) in Hxx by lra. split; [exact Fxx|].
      assert (ulp1 * (Bv xx * Bv xx) <= 1/1000000000 * (6/100000000)) by (apply Rmult_le_compat; lra).
      split; [apply bsquare_pos; [exact Fx|rewrite Rabs_pos_eq by lra; lra]|]. unfold Rabs in Hxx. destruct (Rcase_abs _) in Hxx; lra. }
    destruct a as [[a0 a1] a2], b as [[b0 b1] b2], c as [[c0 c1] c2], d as [[d0 d1] d2]. cbn [sub3 add3 scale3] in *. injection Sol as E0 E1 E2.
    destruct AB as [[AB0 AB1] AB2], AC as [[AC0 AC1] AC2], CD as [[CD0 CD1] CD2]. cbn [V bnd] in *.
    destruct VAB as (VAB0 & VAB1 & VAB2), VAC as (VAC0 & VAC1 & VAC2), VCD as (VCD0 & VCD1 & VCD2), BAB as (BAB0 & BAB1 & BAB2), BAC as (BAC0 & BAC1 & BAC2), BCD as (BCD0 & BCD1 & BCD2).
    destruct (Gap _ _ _ _ _ _ VAC0 VAB0 VCD0 BAC0 BAB0 BCD0 ltac:(lra)) as [Fg0 Hg0]. destruct (Gap _ _ _ _ _ _ VAC1 VAB1 VCD1 BAC1 BAB1 BCD1 ltac:(lra)) as [Fg1 Hg1].
    destruct (Gap _ _ _ _ _ _ VAC2 VAB2 VCD2 BAC2 BAB2 BCD2 ltac:(lra)) as [Fg2 Hg2]. cbv zeta in *. cbn [comp]. clear Gap.
    set (g0 := fmul Bnum _ _) in Fg0, Hg0. set (g1 := fmul Bnum _ _) in Fg1, Hg1. set (g2 := fmul Bnum _ _) in Fg2, Hg2. fold g0 g1 g2.
    pose proof eta_lt as El. pose proof p500 as P5. assert (Up : 0 < ulp1 <= 1/1000000000) by (unfold ulp1; lra).
    assert (Ad : forall f g B, Bfin f = true -> Bfin g = true -> 0 <= Bv f <= B -> 0 <= Bv g <= 1/10000000 -> B <= 1 -> Bfin (fadd Bnum f g) = true /\ 0 <= Bv (fadd Bnum f g) <= B + 11/100000000).
    { intros f g B Ff Fg Vf Vg HB. destruct (bplus_err f g Ff Fg) as [[Fx Hx] _]; [rewrite Rabs_pos_eq by lra; lra|]. split; [exact Fx|]. split; [apply bplus_pos; try assumption; lra|].
      rewrite (Rabs_pos_eq (Bv f + Bv g)) in Hx by lra. assert (ulp1 * (Bv f + Bv g) <= 1/1000000000 * 2) by (apply Rmult_le_compat; lra). unfold Rabs in Hx. destruct (Rcase_abs _) in Hx; lra. }
    destruct (Ad zero g0 0 Fz Fg0 ltac:(lra) Hg0 ltac:(lra)) as [Fa Ha]. destruct (Ad _ g1 _ Fa Fg1 Ha Hg1 ltac:(lra)) as [Fb Hb]. destruct (Ad _ g2 _ Fb Fg2 Hb Hg2 ltac:(lra)) as [Fc Hc].
    apply blt_true; try assumption. lra.
Qed.
End Figure.
End Lib.
