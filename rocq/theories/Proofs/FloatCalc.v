(** A calculus for the accumulated rounding error of binary64 expressions: an error is
    given as a multiple c of k*s, where k is a relative precision and s the size of the numbers. *)
From Coq Require Import Reals ZArith Bool Lia Lra Psatz.
From Flocq Require Import Core IEEE754.BinarySingleNaN IEEE754.Binary IEEE754.Bits.
From Verif Require Import Base.Res Model.Tau Model.Num Proofs.MachineLemmas Proofs.RoundLemmas.
Local Open Scope R_scope.
Local Notation Bnum := Bmath.

Section Lib.
Context {la : linalg}.

Lemma blt_spec x y : Bfin x = true -> Bfin y = true -> (flt Bnum x y = true <-> Bv x < Bv y).
Proof.
  intros Fx Fy. change (flt Bnum x y) with (b64_lt x y). unfold b64_lt. rewrite (Bcompare_correct 53 1024 x y Fx Fy).
  destruct (Rcompare_spec (Bv x) (Bv y)); split; intros; try lra; try discriminate; reflexivity.
Qed.
Lemma ble_spec x y : Bfin x = true -> Bfin y = true -> (fle Bnum x y = true <-> Bv x <= Bv y).
Proof.
  intros Fx Fy. change (fle Bnum x y) with (b64_le x y). unfold b64_le. rewrite (Bcompare_correct 53 1024 x y Fx Fy).
  destruct (Rcompare_spec (Bv x) (Bv y)); split; intros; try lra; try discriminate; reflexivity.
Qed.
Lemma blt_true x y : Bfin x = true -> Bfin y = true -> Bv x < Bv y -> flt Bnum x y = true.
Proof. intros Fx Fy H. apply blt_spec; assumption. Qed.
Lemma blt_false x y : Bfin x = true -> Bfin y = true -> Bv y <= Bv x -> flt Bnum x y = false.
Proof. intros Fx Fy H. destruct (flt Bnum x y) eqn:E; [|reflexivity]. apply blt_spec in E; try assumption. lra. Qed.
Lemma ble_true x y : Bfin x = true -> Bfin y = true -> Bv x <= Bv y -> fle Bnum x y = true.
Proof. intros Fx Fy H. apply ble_spec; assumption. Qed.
Lemma ble_false x y : Bfin x = true -> Bfin y = true -> Bv y < Bv x -> fle Bnum x y = false.
Proof. intros Fx Fy H. destruct (fle Bnum x y) eqn:E; [|reflexivity]. apply ble_spec in E; try assumption. lra. Qed.
Lemma babs_val x : Bv (fabs Bnum x) = Rabs (Bv x).
Proof. change (fabs Bnum x) with (b64_abs x). unfold b64_abs. apply B2R_Babs. Qed.
Lemma babs_fin x : Bfin x = true -> Bfin (fabs Bnum x) = true.
Proof. intros H. change (fabs Bnum x) with (b64_abs x). unfold b64_abs. rewrite is_finite_Babs. exact H. Qed.
Lemma bneg_val x : Bv (fneg Bnum x) = - Bv x.
Proof. change (fneg Bnum x) with (b64_opp x). unfold b64_opp. apply B2R_Bopp. Qed.
Lemma bneg_fin x : Bfin x = true -> Bfin (fneg Bnum x) = true.
Proof. intros H. change (fneg Bnum x) with (b64_opp x). unfold b64_opp. rewrite is_finite_Bopp. exact H. Qed.

Definition big : R := bpow radix2 400.
Lemma big_room : big * 100000000 <= bpow radix2 500.
Proof.
  unfold big. assert (100000000 <= bpow radix2 100) by (apply Rle_trans with (bpow radix2 27); [cbn; lra|apply bpow_le; lia]).
  replace (bpow radix2 500) with (bpow radix2 400 * bpow radix2 100) by (rewrite <- bpow_plus; reflexivity). apply Rmult_le_compat_l; [apply bpow_ge_0|assumption].
Qed.

Section Calc.
(** k: relative precision; q: how many times smaller half an ulp is. *)
Variables k q : R.
Hypothesis Hk : 0 < k <= 1/1048576.
Hypothesis Hq : ulp1 <= q * k.
Hypothesis Q1 : 1/100 <= q <= 1.

Definition size (s : R) : Prop := 0 < s /\ eta <= 1/1000 * (k * s) /\ s <= big.
Definition G (s : R) (x : binary64) (r c : R) : Prop := Bfin x = true /\ Rabs (Bv x - r) <= c * (k * s).

Lemma G_abs_le s x r c B : 0 < s -> 0 <= c -> G s x r c -> Rabs r <= B * s -> Rabs (Bv x) <= (B + c / 1048576) * s.
Proof.
  intros S C [_ H] R. replace (Bv x) with (r + (Bv x - r)) by ring. eapply Rle_trans; [apply Rabs_triang|].
  assert (c * (k * s) <= c * (1/1048576 * s)) by (apply Rmult_le_compat_l; [lra|apply Rmult_le_compat_r; lra]). lra.
Qed.
Lemma G_weaken s x r c c' : 0 < s -> c <= c' -> G s x r c -> G s x r c'.
Proof. intros S L [H1 H2]. split; [exact H1|]. eapply Rle_trans; [exact H2|]. apply Rmult_le_compat_r; [|exact L]. apply Rmult_le_pos; lra. Qed.

Lemma round_step s x r v c d B : size s -> Bfin x = true -> Rabs (Bv x - v) <= ulp1 * Rabs v + eta -> Rabs (v - r) <= d * (k * s) -> 0 <= d -> Rabs r <= B * s ->
  d + q * (B + d / 1048576) + 1/1000 <= c -> G s x r c.
Proof.
  intros (S & Et & _) Fx H1 H2 D R L. split; [exact Fx|]. replace (Bv x - r) with ((Bv x - v) + (v - r)) by ring. eapply Rle_trans; [apply Rabs_triang|].
  assert (KS : 0 < k * s) by (apply Rmult_lt_0_compat; lra).
  assert (V : Rabs v <= (B + d / 1048576) * s).
  { replace v with (r + (v - r)) by ring. eapply Rle_trans; [apply Rabs_triang|].
    assert (d * (k * s) <= d * (1/1048576 * s)) by (apply Rmult_le_compat_l; [lra|apply Rmult_le_compat_r; lra]). lra. }
  assert (U : ulp1 * Rabs v <= (q * k) * ((B + d / 1048576) * s)).
  { apply Rmult_le_compat; [unfold ulp1; lra|apply Rabs_pos|exact Hq|exact V]. }
  apply Rle_trans with ((d + q * (B + d / 1048576) + 1/1000) * (k * s)); [|apply Rmult_le_compat_r; lra]. lra.
Qed.
Lemma room s v B d : size s -> Rabs v <= (B + d / 1048576) * s -> B + d / 1048576 <= 100000000 -> Rabs v <= bpow radix2 500.
Proof.
  intros (S & _ & Sb) V L. eapply Rle_trans; [exact V|]. pose proof big_room. apply Rle_trans with (100000000 * s); [apply Rmult_le_compat_r; lra|]. lra.
Qed.
Lemma within_ d s v r B : size s -> 0 <= d -> Rabs (v - r) <= d * (k * s) -> Rabs r <= B * s -> Rabs v <= (B + d / 1048576) * s.
Proof.
  intros (S & _) D H R. replace v with (r + (v - r)) by ring. eapply Rle_trans; [apply Rabs_triang|].
  assert (d * (k * s) <= d * (1/1048576 * s)) by (apply Rmult_le_compat_l; [lra|apply Rmult_le_compat_r; lra]). lra.
Qed.
Lemma num_room B d c : 0 <= d -> d + q * (B + d / 1048576) + 1/1000 <= c -> c <= 1000000 -> B + d / 1048576 <= 100000000.
Proof. intros D L C. assert (q * (B + d / 1048576) <= 1000000) by lra. destruct (Rle_dec (B + d / 1048576) 0); [lra|]. nra. Qed.

Lemma G_add s x y r t c c' B c'' : size s -> 0 <= c -> 0 <= c' -> G s x r c -> G s y t c' -> Rabs (r + t) <= B * s ->
  c + c' + q * (B + (c + c') / 1048576) + 1/1000 <= c'' -> c'' <= 1000000 -> G s (fadd Bnum x y) (r + t) c''.
Proof.
  intros S C C' [Fx Hx] [Fy Hy] R L M.
  assert (V : Rabs (Bv x + Bv y - (r + t)) <= (c + c') * (k * s)).
  { replace (Bv x + Bv y - (r + t)) with ((Bv x - r) + (Bv y - t)) by ring. eapply Rle_trans; [apply Rabs_triang|]. lra. }
  assert (D : 0 <= c + c') by lra. pose proof (within_ _ _ _ _ _ S D V R) as W.
  destruct (bplus_err x y Fx Fy) as [[Fz Hz] _]; [apply (room s _ B (c + c') S W); eapply num_room; [exact D|exact L|exact M]|].
  exact (round_step s _ (r + t) _ c'' (c + c') B S Fz Hz V D R L).
Qed.
Lemma G_sub s x y r t c c' B c'' : size s -> 0 <= c -> 0 <= c' -> G s x r c -> G s y t c' -> Rabs (r - t) <= B * s ->
  c + c' + q * (B + (c + c') / 1048576) + 1/1000 <= c'' -> c'' <= 1000000 -> G s (fsub Bnum x y) (r - t) c''.
Proof.
  intros S C C' [Fx Hx] [Fy Hy] R L M.
  assert (V : Rabs (Bv x - Bv y - (r - t)) <= (c + c') * (k * s)).
  { replace (Bv x - Bv y - (r - t)) with ((Bv x - r) + - (Bv y - t)) by ring. eapply Rle_trans; [apply Rabs_triang|]. rewrite Rabs_Ropp. lra. }
  assert (D : 0 <= c + c') by lra. pose proof (within_ _ _ _ _ _ S D V R) as W.
  destruct (bminus_err x y Fx Fy) as [[Fz Hz] _]; [apply (room s _ B (c + c') S W); eapply num_room; [exact D|exact L|exact M]|].
  exact (round_step s _ (r - t) _ c'' (c + c') B S Fz Hz V D R L).
Qed.
Lemma G_mul s s' x y r t c c' B B' c'' : size (s * s') -> 0 < s -> 0 < s' -> 0 <= c -> 0 <= c' -> G s x r c -> G s' y t c' -> Rabs r <= B * s -> Rabs t <= B' * s' ->
  (c * (B' + c' / 1048576) + B * c') + q * (B * B' + (c * (B' + c' / 1048576) + B * c') / 1048576) + 1/1000 <= c'' -> c'' <= 1000000 -> G (s * s') (fmul Bnum x y) (r * t) c''.
Proof.
  intros S S1 S2 C C' [Fx Hx] Gy R T L M. pose proof (G_abs_le s' y t c' B' S2 C' Gy T) as Ay. destruct Gy as [Fy Hy].
  assert (B0 : 0 <= B). { pose proof (Rabs_pos r). destruct (Rle_dec 0 B); [assumption|]. nra. }
  assert (B1 : 0 <= B'). { pose proof (Rabs_pos t). destruct (Rle_dec 0 B'); [assumption|]. nra. }
  assert (D : 0 <= c * (B' + c' / 1048576) + B * c').
  { assert (0 <= c * (B' + c' / 1048576)) by (apply Rmult_le_pos; lra). assert (0 <= B * c') by (apply Rmult_le_pos; assumption). lra. }
  assert (V : Rabs (Bv x * Bv y - r * t) <= (c * (B' + c' / 1048576) + B * c') * (k * (s * s'))).
  { replace (Bv x * Bv y - r * t) with ((Bv x - r) * Bv y + r * (Bv y - t)) by ring. eapply Rle_trans; [apply Rabs_triang|]. rewrite !Rabs_mult.
    assert (Rabs (Bv x - r) * Rabs (Bv y) <= (c * (k * s)) * ((B' + c' / 1048576) * s')) by (apply Rmult_le_compat; [apply Rabs_pos|apply Rabs_pos|exact Hx|exact Ay]).
    assert (Rabs r * Rabs (Bv y - t) <= (B * s) * (c' * (k * s'))) by (apply Rmult_le_compat; [apply Rabs_pos|apply Rabs_pos|exact R|exact Hy]). lra. }
  assert (RT : Rabs (r * t) <= (B * B') * (s * s')).
  { rewrite Rabs_mult. apply Rle_trans with ((B * s) * (B' * s')); [apply Rmult_le_compat; try apply Rabs_pos; assumption|lra]. }
  pose proof (within_ _ _ _ _ _ S D V RT) as W.
  destruct (bmult_err x y Fx Fy) as [[Fz Hz] _]; [apply (room (s * s') _ (B * B') (c * (B' + c' / 1048576) + B * c') S W); eapply num_room; [exact D|exact L|exact M]|].
  exact (round_step (s * s') _ (r * t) _ c'' _ (B * B') S Fz Hz V D RT L).
Qed.
(** Division by an exactly represented positive integer. *)
Lemma G_divZ s x r c B n c'' : size s -> 0 <= c -> G s x r c -> Rabs r <= B * s -> (0 < n <= 2^53)%Z ->
  c / IZR n + q * (B / IZR n + (c / IZR n) / 1048576) + 1/1000 <= c'' -> c'' <= 1000000 -> G s (fdiv Bnum x (fZ Bnum n)) (r / IZR n) c''.
Proof.
  intros S C [Fx Hx] R Nn L M. destruct (apx_Z n) as [[Fn _] Vn]; [lia|]. assert (N0 : 0 < IZR n) by (apply IZR_lt; lia). assert (I : 0 < / IZR n) by (apply Rinv_0_lt_compat; exact N0).
  assert (D : 0 <= c / IZR n) by (apply Rmult_le_pos; lra).
  assert (V : Rabs (Bv x / Bv (fZ Bnum n) - r / IZR n) <= (c / IZR n) * (k * s)).
  { rewrite Vn. replace (Bv x / IZR n - r / IZR n) with ((Bv x - r) * / IZR n) by (field; lra). rewrite Rabs_mult, (Rabs_right (/ IZR n)) by lra.
    replace (c / IZR n * (k * s)) with (c * (k * s) * / IZR n) by (unfold Rdiv; ring). apply Rmult_le_compat_r; [lra|exact Hx]. }
  assert (RT : Rabs (r / IZR n) <= (B / IZR n) * s).
  { unfold Rdiv. rewrite Rabs_mult, (Rabs_right (/ IZR n)) by lra. replace (B * / IZR n * s) with (B * s * / IZR n) by ring. apply Rmult_le_compat_r; [lra|exact R]. }
  pose proof (within_ _ _ _ _ _ S D V RT) as W.
  destruct (bdiv_err x (fZ Bnum n) Fx Fn) as [[Fz Hz] _]; [rewrite Vn; lra|apply (room s _ (B / IZR n) (c / IZR n) S W); eapply num_room; [exact D|exact L|exact M]|].
  exact (round_step s _ (r / IZR n) _ c'' _ (B / IZR n) S Fz Hz V D RT L).
Qed.
Lemma G_abs s x r c : G s x r c -> G s (fabs Bnum x) (Rabs r) c.
Proof. intros [Fx H]. split; [apply babs_fin; exact Fx|]. rewrite babs_val. eapply Rle_trans; [apply Rabs_triang_inv2|exact H]. Qed.
Lemma G_neg s x r c : G s x r c -> G s (fneg Bnum x) (- r) c.
Proof. intros [Fx H]. split; [apply bneg_fin; exact Fx|]. rewrite bneg_val. replace (- Bv x - - r) with (- (Bv x - r)) by ring. rewrite Rabs_Ropp. exact H. Qed.
Lemma G_exact s x r : 0 < s -> Bfin x = true -> Bv x = r -> G s x r 0.
Proof. intros S Fx E. split; [exact Fx|]. rewrite E. replace (r - r) with 0 by ring. rewrite Rabs_R0. lra. Qed.
(** Comparisons that rounding cannot change. *)
Lemma G_lt_true s s' x y r t c c' : G s x r c -> G s' y t c' -> r + c * (k * s) + c' * (k * s') < t -> flt Bnum x y = true.
Proof. intros [Fx Hx] [Fy Hy] L. apply blt_true; try assumption. unfold Rabs in Hx, Hy. destruct (Rcase_abs (Bv x - r)), (Rcase_abs (Bv y - t)); lra. Qed.
Lemma G_lt_false s s' x y r t c c' : G s x r c -> G s' y t c' -> t + c * (k * s) + c' * (k * s') <= r -> flt Bnum x y = false.
Proof. intros [Fx Hx] [Fy Hy] L. apply blt_false; try assumption. unfold Rabs in Hx, Hy. destruct (Rcase_abs (Bv x - r)), (Rcase_abs (Bv y - t)); lra. Qed.
Lemma G_le_true s s' x y r t c c' : G s x r c -> G s' y t c' -> r + c * (k * s) + c' * (k * s') <= t -> fle Bnum x y = true.
Proof. intros [Fx Hx] [Fy Hy] L. apply ble_true; try assumption. unfold Rabs in Hx, Hy. destruct (Rcase_abs (Bv x - r)), (Rcase_abs (Bv y - t)); lra. Qed.
Lemma G_le_false s s' x y r t c c' : G s x r c -> G s' y t c' -> t + c * (k * s) + c' * (k * s') < r -> fle Bnum x y = false.
Proof. intros [Fx Hx] [Fy Hy] L. apply ble_false; try assumption. unfold Rabs in Hx, Hy. destruct (Rcase_abs (Bv x - r)), (Rcase_abs (Bv y - t)); lra. Qed.
End Calc.
End Lib.
