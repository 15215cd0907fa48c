(** The test whether a point lies on a segment, in binary64. *)
From Coq Require Import Reals List ZArith Bool Lia Lra Psatz.
From Flocq Require Import Core IEEE754.BinarySingleNaN IEEE754.Binary IEEE754.Bits.
From Verif Require Import Base.Res Model.Tau Model.Arr Model.Num Model.IcoNumeric
  Spec.LinAlg Spec.Value Spec.RVec Spec.Space Spec.Tetra Spec.Float
  Proofs.Frontier Proofs.NumLemmas Proofs.IntersectLemmas Proofs.CoplanarLemmas Proofs.RoundLemmas Proofs.FloatCalc Proofs.FloatGeom Proofs.DodeFloatGeom Proofs.FloatBall Proofs.MergeLemmas.
Import ListNotations.
Local Open Scope R_scope.
Local Notation Bnum := Bmath.

Definition E0 : R := 1000 / 2251799813685248.
Definition E1 : R := 3000 / 2251799813685248.

Section Lib.
Context {la : linalg} {LA : linalg_ok la}.

Lemma big500' x : Rabs x <= 1000000000000 -> Rabs x <= bpow radix2 500.
Proof. intros H. eapply Rle_trans; [exact H|]. apply Rle_trans with (bpow radix2 40); [cbn; lra|apply bpow_le; lia]. Qed.
Lemma eta_25 : 0 < eta <= 1/1000000000000000000000000000000.
Proof. pose proof eta_pos. pose proof eta_lt. lra. Qed.
Lemma diff1 x y r t : apx x r E0 -> apx y t E0 -> Rabs r <= 600 -> Rabs t <= 600 -> apx (fsub Bnum x y) (r - t) E1 /\ Rabs (r - t) <= 1200.
Proof.
  intros [Fx Hx] [Fy Hy] Br Bt. pose proof (tri2m _ _ _ _ Br Bt) as Bd. split; [|lra]. pose proof eta_25 as Et.
  assert (K : Rabs ((Bv x - Bv y) - (r - t)) <= 2 * E0). { replace ((Bv x - Bv y) - (r - t)) with ((Bv x - r) - (Bv y - t)) by ring. pose proof (tri2m _ _ _ _ Hx Hy). lra. }
  assert (B : Rabs (Bv x - Bv y) <= 1201). { replace (Bv x - Bv y) with ((r - t) + ((Bv x - Bv y) - (r - t))) by ring. pose proof (tri2 _ _ _ _ Bd K). unfold E0 in *. lra. }
  destruct (bminus_err x y Fx Fy) as [[Fd Hd] _]; [apply big500'; lra|]. split; [exact Fd|].
  replace (Bv (fsub Bnum x y) - (r - t)) with ((Bv (fsub Bnum x y) - (Bv x - Bv y)) + ((Bv x - Bv y) - (r - t))) by ring.
  pose proof (tri2 _ _ _ _ Hd K) as H. unfold ulp1, E0, E1 in *. lra.
Qed.
Lemma diff_B x y p r : P E0 x p -> P E0 y r -> bnd 600 p -> bnd 600 r -> P E1 (psub Bnum x y) (sub3 p r) /\ bnd 1200 (sub3 p r).
Proof.
  destruct x as [[x0 x1] x2], y as [[y0 y1] y2], p as [[p0 p1] p2], r as [[r0 r1] r2]. intros (X0 & X1 & X2) (Y0 & Y1 & Y2) (A0 & A1 & A2) (B0 & B1 & B2). cbn [psub sub3].
  destruct (diff1 _ _ _ _ X0 Y0 A0 B0), (diff1 _ _ _ _ X1 Y1 A1 B1), (diff1 _ _ _ _ X2 Y2 A2 B2). split; (split; [|split]); assumption.
Qed.
Lemma prod1 X Y p r : Rabs (X - p) <= E1 -> Rabs (Y - r) <= E1 -> Rabs p <= 1200 -> Rabs r <= 1200 -> Rabs (X * Y - p * r) <= 2401 * E1 /\ Rabs X * Rabs Y <= 1500000.
Proof.
  intros Hx Hy Bp Br. assert (BX : Rabs X <= 1201). { replace X with (p + (X - p)) by ring. pose proof (tri2 _ _ _ _ Bp Hx). unfold E1 in *. lra. }
  assert (BY : Rabs Y <= 1201). { replace Y with (r + (Y - r)) by ring. pose proof (tri2 _ _ _ _ Br Hy). unfold E1 in *. lra. }
  assert (E0' : 0 <= E1) by (unfold E1; lra). pose proof (Rabs_pos X). pose proof (Rabs_pos Y). pose proof (Rabs_pos p). pose proof (Rabs_pos (X - p)). pose proof (Rabs_pos (Y - r)). split; [|nra].
  replace (X * Y - p * r) with ((X - p) * Y + p * (Y - r)) by ring.
  assert (Rabs ((X - p) * Y) <= 1201 * E1) by (rewrite Rabs_mult; nra). assert (Rabs (p * (Y - r)) <= 1200 * E1) by (rewrite Rabs_mult; nra).
  eapply Rle_trans; [apply Rabs_triang|]. lra.
Qed.
Lemma dot_B x y p r : P E1 x p -> P E1 y r -> bnd 1200 p -> bnd 1200 r -> apx (pdot Bnum x y) (dot3 p r) (15/1000000000).
Proof.
  destruct x as [[x0 x1] x2], y as [[y0 y1] y2], p as [[p0 p1] p2], r as [[r0 r1] r2]. intros ([FX0 X0] & [FX1 X1] & [FX2 X2]) ([FY0 Y0] & [FY1 Y1] & [FY2 Y2]) (A0 & A1 & A2) (B0 & B1 & B2).
  assert (In_ : forall z c, Bfin z = true -> Rabs (Bv z - c) <= E1 -> Rabs c <= 1200 -> fin_le (bpow radix2 200) z).
  { intros z c Fz Hz Hc. split; [exact Fz|]. change (B2R 53 1024 z) with (Bv z). replace (Bv z) with (c + (Bv z - c)) by ring. pose proof (tri2 _ _ _ _ Hc Hz). pose proof p200. unfold E1 in *. lra. }
  assert (RX : row_le (bpow radix2 200) (x0, x1, x2)) by (split; [|split]; eapply In_; eassumption).
  assert (RY : row_le (bpow radix2 200) (y0, y1, y2)) by (split; [|split]; eapply In_; eassumption).
  destruct (proj1 LA _ _ RX RY) as (Fd & Hd & _). cbn [val3 abs3 dot3] in Hd. rewrite u53 in Hd. split; [exact Fd|]. cbn [pdot dot3].
  match type of Hd with Rabs (?t - _) <= _ => change t with (Bv (fdot Bnum [x0; x1; x2] [y0; y1; y2])) in Hd end. set (d := Bv (fdot Bnum _ _)) in *. clearbody d.
  change (B2R 53 1024) with Bv in Hd. 
  destruct (prod1 _ _ _ _ X0 Y0 A0 B0) as [P0 Q0]. destruct (prod1 _ _ _ _ X1 Y1 A1 B1) as [P1 Q1]. destruct (prod1 _ _ _ _ X2 Y2 A2 B2) as [P2 Q2].
  assert (T0 : bpow radix2 (-1000) <= 1/1000000000000000). { apply Rle_trans with (bpow radix2 (-60)); [apply bpow_le; lia|]. cbn. lra. }
  replace (d - (p0 * r0 + p1 * r1 + p2 * r2)) with ((d - (Bv x0 * Bv y0 + Bv x1 * Bv y1 + Bv x2 * Bv y2)) + ((Bv x0 * Bv y0 - p0 * r0) + (Bv x1 * Bv y1 - p1 * r1) + (Bv x2 * Bv y2 - p2 * r2))) by ring.
  pose proof (sum3_le _ _ _ _ _ _ _ P0 P1 P2 (Rle_refl _)) as S. pose proof (tri2 _ _ _ _ Hd S) as H. eapply Rle_trans; [exact H|]. unfold ulp1, E1 in *. lra.
Qed.
Lemma len_B x p : P E1 x p -> bnd 1200 p -> apx (pnorm Bnum x) (norm3 p) (7/1000000000000) /\ 0 <= norm3 p <= 2080.
Proof.
  intros Hx Hp. assert (Hp' : bnd 3000 p) by (destruct p as [[? ?] ?]; cbn in *; intuition lra). destruct x as [[x0 x1] x2].
  destruct (norm_B 3000 x0 x1 x2 p ltac:(lra) Hp' Hx) as [A _]. pose proof (norm3_bnd 1200 p ltac:(lra) Hp) as B. pose proof (norm3_pos p). split; [|lra].
  eapply apx_weaken; [exact A|]. lra.
Qed.

(** ** The quotient of the lengths *)
Lemma ratio_big x y : Bfin x = true -> Bfin y = true -> Bv y <> 0 -> 2 <= Bv x / Bv y -> fle Bnum (fZ Bnum 0) (fdiv Bnum x y) && fle Bnum (fdiv Bnum x y) (fZ Bnum 1) = false.
Proof.
  intros Fx Fy Ny H. change (fdiv Bnum x y) with (b64_div mode_NE x y). unfold b64_div.
  match goal with |- context [Bdiv 53 1024 ?a ?b ?n ?m _ _] => pose proof (Bdiv_correct 53 1024 a b n m x y Ny) as C; set (z := Bdiv 53 1024 a b n m x y) in * end.
  destruct (apx_Z 1 ltac:(cbn; lia)) as [[F1 _] V1]. 
  destruct (Rlt_bool _ _) in C.
  - destruct C as (V & Fz & _). change (is_finite 53 1024 x) with (Bfin x) in Fz. rewrite Fx in Fz. apply andb_false_iff. right. apply ble_false; [exact Fz|exact F1|]. rewrite V1. change (1 < B2R 53 1024 z). rewrite V.
    apply Rlt_le_trans with 2; [lra|]. apply round_ge_generic; [apply fexp_correct; reflexivity|apply valid_rnd_round_mode| |exact H].
    change 2 with (bpow radix2 1). apply generic_format_bpow. cbn. lia.
  - unfold BinarySingleNaN.binary_overflow in C. cbn in C. destruct z as [s|s|s pl|s m e He]; cbn in C; try discriminate C. destruct s; [reflexivity|]. apply andb_false_iff. right. reflexivity.
Qed.
Lemma ratio_small x y : Bfin x = true -> Bfin y = true -> 0 < Bv y -> fle Bnum (fZ Bnum 0) (fdiv Bnum x y) && fle Bnum (fdiv Bnum x y) (fZ Bnum 1) = true ->
  Bv x <= Bv y * (1 + 10 * ulp1).
Proof.
  intros Fx Fy Py H. assert (Q : Bv x = Bv x / Bv y * Bv y) by (field; lra). set (s := Bv x / Bv y) in *.
  destruct (Rle_lt_dec 2 s) as [B|B]; [rewrite ratio_big in H by (try assumption; lra); discriminate|].
  destruct (Rle_lt_dec s 0) as [N|N]; [unfold ulp1; nra|].
  destruct (bdiv_err x y Fx Fy ltac:(lra)) as [[Fd Hd] _]; [apply big500'; fold s; rewrite Rabs_right by lra; lra|]. fold s in Hd. rewrite (Rabs_right s) in Hd by lra.
  apply andb_true_iff in H as [_ H]. destruct (apx_Z 1 ltac:(cbn; lia)) as [[F1 _] V1]. apply ble_spec in H; [|exact Fd|exact F1]. rewrite V1 in H.
  pose proof eta_25. assert (eta <= ulp1) by (unfold ulp1; lra). rewrite Q, Rmult_comm. apply Rmult_le_compat_l; [lra|]. unfold Rabs in Hd. unfold ulp1 in *. destruct (Rcase_abs _) in Hd; lra.
Qed.
Lemma ratio_in x y : Bfin x = true -> Bfin y = true -> 0 < Bv y <= 3000 -> 1/1000 <= Bv x -> Bv x + 1/1000 <= Bv y -> fle Bnum (fZ Bnum 0) (fdiv Bnum x y) && fle Bnum (fdiv Bnum x y) (fZ Bnum 1) = true.
Proof.
  intros Fx Fy Py Hx H. assert (Q : Bv x = Bv x / Bv y * Bv y) by (field; lra). set (s := Bv x / Bv y) in *.
  assert (S0 : 1/3000000 <= s) by (apply Rnot_lt_le; intros C; assert (s * Bv y < 1/1000) by nra; lra).
  assert (S1 : s <= 1 - 1/3000000) by (apply Rnot_lt_le; intros C; assert (Bv y - 1/1000 < s * Bv y) by nra; lra).
  destruct (bdiv_err x y Fx Fy ltac:(lra)) as [[Fd Hd] _]; [apply big500'; fold s; rewrite Rabs_right by lra; lra|]. fold s in Hd. rewrite (Rabs_right s) in Hd by lra.
  destruct (apx_Z 1 ltac:(cbn; lia)) as [[F1 _] V1]. destruct (apx_Z 0 ltac:(cbn; lia)) as [[F0 _] V0]. pose proof eta_25. unfold ulp1 in Hd.
  apply andb_true_iff. split; apply ble_true; try assumption; rewrite ?V0, ?V1; unfold Rabs in Hd; destruct (Rcase_abs _) in Hd; lra.
Qed.

(** ** A point nearly on the segment *)
Lemma near_segment (p a b : R3) : dot3 (sub3 p a) (sub3 b a) >= norm3 (sub3 p a) * norm3 (sub3 b a) - 11/10000000 -> norm3 (sub3 p a) <= norm3 (sub3 b a) + 1/1000000000 ->
  exists h, hull [a; b] h /\ dist3 p h < 3/2000.
Proof.
  intros Hd Hl. assert (K : forall s, 0 <= s <= 1 -> dot3 (sub3 p (line s a b)) (sub3 p (line s a b)) < 225/100000000 -> exists h, hull [a; b] h /\ dist3 p h < 3/2000).
  { intros s Hs H. exists (line s a b). split; [apply hull2_line; exists s; auto|]. unfold dist3. rewrite <- dot_norm in H. pose proof (norm_pos (sub3 p (line s a b))). nra. }
  assert (E : forall s, dot3 (sub3 p (line s a b)) (sub3 p (line s a b)) = norm3 (sub3 p a) * norm3 (sub3 p a) - 2 * s * dot3 (sub3 p a) (sub3 b a) + s * s * (norm3 (sub3 b a) * norm3 (sub3 b a))).
  { intros s. rewrite !dot_norm. destruct a as [[a0 a1] a2], b as [[b0 b1] b2], p as [[p0 p1] p2]. cbn. ring. }
  pose proof (norm_pos (sub3 p a)) as Pl. pose proof (norm_pos (sub3 b a)) as PL. set (l := norm3 (sub3 p a)) in *. set (L := norm3 (sub3 b a)) in *. set (d := dot3 (sub3 p a) (sub3 b a)) in *. clearbody l L d.
  destruct (Rle_lt_dec l L) as [C|C].
  - destruct (Rle_lt_dec L 0) as [Z|Z]; [apply (K 0); [lra|]; rewrite E; assert (l = 0) by lra; subst l; lra|].
    assert (El : l = (l / L) * L) by (field; lra). set (s := l / L) in *. assert (Hs : 0 <= s <= 1).
    { split; [unfold s; apply Rmult_le_pos; [lra|]; left; apply Rinv_0_lt_compat; lra|]. apply Rnot_lt_le. intros D. nra. }
    apply (K s Hs). rewrite E. assert (X : l * l = s * s * (L * L)) by (rewrite El; ring). assert (Y : l * L = s * (L * L)) by (rewrite El; ring). assert (s * d >= s * (l * L - 11/10000000)) by (apply Rle_ge, Rmult_le_compat_l; lra).
    assert (s * (l * L) = s * s * (L * L)) by (rewrite Y; ring). nra.
  - apply (K 1); [lra|]. rewrite E. assert ((l - L) * (l - L) <= 1/1000000000000000) by nra. nra.
Qed.

(** ** The test *)
Variables (x y z : Num.pt Bnum) (p a b : R3).
Hypothesis Hx : P E0 x p.
Hypothesis Hy : P E0 y a.
Hypothesis Hz : P E0 z b.
Hypothesis Bp : bnd 600 p.
Hypothesis Ba : bnd 600 a.
Hypothesis Bb : bnd 600 b.

Lemma gap_B : let g := fabs Bnum (fsub Bnum (pdot Bnum (psub Bnum x y) (psub Bnum z y)) (fmul Bnum (pnorm Bnum (psub Bnum x y)) (pnorm Bnum (psub Bnum z y)))) in
  Bfin g = true /\ Rabs (dot3 (sub3 p a) (sub3 b a) - norm3 (sub3 p a) * norm3 (sub3 b a)) - 5/100000000 <= Bv g <= Rabs (dot3 (sub3 p a) (sub3 b a) - norm3 (sub3 p a) * norm3 (sub3 b a)) + 5/100000000.
Proof.
  cbv zeta. destruct (diff_B _ _ _ _ Hx Hy Bp Ba) as [Pu Bu]. destruct (diff_B _ _ _ _ Hz Hy Bb Ba) as [Pv Bv'].
  pose proof (dot_B _ _ _ _ Pu Pv Bu Bv') as [Fd Hd]. destruct (len_B _ _ Pu Bu) as [[Fl Hl] Ll]. destruct (len_B _ _ Pv Bv') as [[FL HL] LL].
  set (d := pdot Bnum _ _) in *. set (l := pnorm Bnum (psub Bnum x y)) in *. set (L := pnorm Bnum (psub Bnum z y)) in *. clearbody d l L.
  set (rd := dot3 (sub3 p a) (sub3 b a)) in *. assert (Crd : Rabs rd <= norm3 (sub3 p a) * norm3 (sub3 b a)) by apply cauchy_abs.
  set (rl := norm3 (sub3 p a)) in *. set (rL := norm3 (sub3 b a)) in *. clearbody rd rl rL.
  assert (Ml : 0 <= Bv l + 1/100000000000 /\ Bv l <= 2081) by (unfold Rabs in Hl; destruct (Rcase_abs _) in Hl; lra). assert (ML : 0 <= Bv L + 1/100000000000 /\ Bv L <= 2081) by (unfold Rabs in HL; destruct (Rcase_abs _) in HL; lra).
  assert (Prr : rl * rL <= 4326400) by nra.
  assert (Pp : Rabs (Bv l * Bv L - rl * rL) <= 293/10000000000).
  { replace (Bv l * Bv L - rl * rL) with ((Bv l - rl) * Bv L + rl * (Bv L - rL)) by ring.
    assert (Rabs ((Bv l - rl) * Bv L) <= 7/1000000000000 * 2081). { rewrite Rabs_mult. apply Rmult_le_compat; [apply Rabs_pos|apply Rabs_pos|exact Hl|]. apply Rabs_le. lra. }
    assert (Rabs (rl * (Bv L - rL)) <= 2080 * (7/1000000000000)). { rewrite Rabs_mult. apply Rmult_le_compat; [apply Rabs_pos|apply Rabs_pos|rewrite Rabs_right; lra|exact HL]. }
    eapply Rle_trans; [apply Rabs_triang|]. lra. }
  assert (Rrr : Rabs (rl * rL) <= 4326400) by (rewrite Rabs_right; [lra|]; apply Rle_ge, Rmult_le_pos; lra).
  assert (Pa : Rabs (Bv l * Bv L) <= 4326401). { replace (Bv l * Bv L) with (rl * rL + (Bv l * Bv L - rl * rL)) by ring. pose proof (tri2 _ _ _ _ Rrr Pp). lra. }
  pose proof eta_25 as Et. destruct (bmult_err l L Fl FL) as [[Fm Hm] _]; [apply big500'; lra|]. set (m := fmul Bnum l L) in *. clearbody m.
  assert (Mm : Rabs (Bv m - rl * rL) <= 3/100000000). { replace (Bv m - rl * rL) with ((Bv m - Bv l * Bv L) + (Bv l * Bv L - rl * rL)) by ring. pose proof (tri2 _ _ _ _ Hm Pp). unfold ulp1 in *. lra. }
  assert (Pd : Rabs ((Bv d - Bv m) - (rd - rl * rL)) <= 45/1000000000). { replace ((Bv d - Bv m) - (rd - rl * rL)) with ((Bv d - rd) - (Bv m - rl * rL)) by ring. pose proof (tri2m _ _ _ _ Hd Mm). lra. }
  assert (Pr : Rabs (rd - rl * rL) <= 8652800). { pose proof (tri2m _ _ _ _ (Rle_trans _ _ _ Crd Prr) Rrr). lra. }
  assert (Pq : Rabs (Bv d - Bv m) <= 8652801). { replace (Bv d - Bv m) with ((rd - rl * rL) + ((Bv d - Bv m) - (rd - rl * rL))) by ring. pose proof (tri2 _ _ _ _ Pr Pd). lra. }
  destruct (bminus_err d m Fd Fm) as [[Fs Hs] _]; [apply big500'; lra|]. set (g := fsub Bnum d m) in *. clearbody g. split; [apply babs_fin, Fs|]. rewrite babs_val.
  assert (Pg : Rabs (Bv g - (rd - rl * rL)) <= 5/100000000). { replace (Bv g - (rd - rl * rL)) with ((Bv g - (Bv d - Bv m)) + ((Bv d - Bv m) - (rd - rl * rL))) by ring. pose proof (tri2 _ _ _ _ Hs Pd). unfold ulp1 in *. lra. }
  pose proof (Rabs_triang_inv2 (Bv g) (rd - rl * rL)) as T. pose proof (Rle_trans _ _ _ T Pg) as T'. unfold Rabs at 1 in T'. destruct (Rcase_abs _) in T'; lra.
Qed.

Lemma on_segment_near : on_segment Bnum x y z = true -> exists h, hull [a; b] h /\ dist3 p h < 3/2000.
Proof.
  unfold on_segment. destruct gap_B as [Fg Hg]. set (g := fabs Bnum _) in *. clearbody g.
  destruct (diff_B _ _ _ _ Hx Hy Bp Ba) as [Pu Bu]. destruct (diff_B _ _ _ _ Hz Hy Bb Ba) as [Pv Bv']. destruct (len_B _ _ Pu Bu) as [[Fl Hl] Ll]. destruct (len_B _ _ Pv Bv') as [[FL HL] LL].
  set (l := pnorm Bnum (psub Bnum x y)) in *. set (L := pnorm Bnum (psub Bnum z y)) in *. clearbody l L.
  destruct (flt Bnum (fZ Bnum 0) L) eqn:C0; [|discriminate]. destruct (flt Bnum g (EPS Bnum)) eqn:C1; [|discriminate]. cbn [andb]. intros H.
  destruct (apx_Z 0 ltac:(cbn; lia)) as [[F0 _] V0]. apply blt_spec in C0; [|exact F0|exact FL]. rewrite V0 in C0. destruct EPS_B as [Fe He]. apply blt_spec in C1; [|exact Fg|exact Fe].
  apply ratio_small in H; [|assumption..]. apply near_segment.
  - assert (Z : Rabs (dot3 (sub3 p a) (sub3 b a) - norm3 (sub3 p a) * norm3 (sub3 b a)) <= 11/10000000) by (unfold Rabs in He; destruct (Rcase_abs _) in He; lra). unfold Rabs in Z. destruct (Rcase_abs _) in Z; lra.
  - unfold ulp1 in H. unfold Rabs in Hl, HL. destruct (Rcase_abs _) in Hl; destruct (Rcase_abs _) in HL; lra.
Qed.
Lemma on_segment_true : hull [a; b] p -> 3/2000 <= dist3 p a -> 3/2000 <= dist3 p b -> on_segment Bnum x y z = true.
Proof.
  intros Hh Da Db. apply hull2_line in Hh as (s & Hs & Ep). unfold on_segment. destruct gap_B as [Fg Hg]. set (g := fabs Bnum _) in *. clearbody g.
  destruct (diff_B _ _ _ _ Hx Hy Bp Ba) as [Pu Bu]. destruct (diff_B _ _ _ _ Hz Hy Bb Ba) as [Pv Bv']. destruct (len_B _ _ Pu Bu) as [[Fl Hl] Ll]. destruct (len_B _ _ Pv Bv') as [[FL HL] LL].
  set (l := pnorm Bnum (psub Bnum x y)) in *. set (L := pnorm Bnum (psub Bnum z y)) in *. clearbody l L.
  assert (Sa : sub3 p a = scale3 s (sub3 b a)) by (rewrite Ep; unfold line; destruct a as [[a0 a1] a2], b as [[b0 b1] b2]; cbn; apply f_equal2; [apply f_equal2|]; ring).
  assert (Sb : sub3 p b = scale3 (-1) (scale3 (1 - s) (sub3 b a))) by (rewrite Ep; unfold line; destruct a as [[a0 a1] a2], b as [[b0 b1] b2]; cbn; apply f_equal2; [apply f_equal2|]; ring).
  assert (Nm : forall v, norm3 (scale3 (-1) v) = norm3 v) by (intros [[v0 v1] v2]; unfold norm3; f_equal; cbn; ring).
  unfold dist3 in Da, Db. rewrite Sb, Nm, norm_scale in Db by lra. rewrite Sa in *. rewrite norm_scale in * by lra.
  assert (D : dot3 (scale3 s (sub3 b a)) (sub3 b a) = s * norm3 (sub3 b a) * norm3 (sub3 b a)) by (rewrite Rmult_assoc, dot_norm; destruct (sub3 b a) as [[? ?] ?]; cbn; ring).
  rewrite D in Hg. match type of Hg with Rabs ?t - _ <= _ <= _ => replace t with 0 in Hg by ring end. rewrite Rabs_R0 in Hg. set (rL := norm3 (sub3 b a)) in *. clearbody rL.
  destruct (apx_Z 0 ltac:(cbn; lia)) as [[F0 _] V0]. destruct EPS_B as [Fe He].
  assert (PL : 1/1000 <= Bv L /\ Bv L <= 3000). { assert (s * rL + (1 - s) * rL = rL) by ring. unfold Rabs in HL; destruct (Rcase_abs _) in HL; lra. }
  rewrite blt_true; [|exact F0|exact FL|rewrite V0; lra]. rewrite blt_true; [|exact Fg|exact Fe|unfold Rabs in He; destruct (Rcase_abs _) in He; lra]. cbn [andb].
  apply ratio_in; [exact Fl|exact FL|lra| |]; assert (s * rL + (1 - s) * rL = rL) by ring; unfold Rabs in Hl, HL; destruct (Rcase_abs _) in Hl; destruct (Rcase_abs _) in HL; lra.
Qed.
End Lib.
