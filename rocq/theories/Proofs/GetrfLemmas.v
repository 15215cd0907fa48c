(** Elimination with partial pivoting is accurate; correctly rounded log and exp exist. *)
From Coq Require Import Reals List ZArith Bool Lia Lra Psatz Arith.
From Flocq Require Import Core IEEE754.BinarySingleNaN IEEE754.Binary IEEE754.Bits.
From Verif Require Import Base.Res Model.Num Model.LinAlg Model.Lapack Spec.LinAlg Spec.Lapack Spec.Space Proofs.MachineLemmas Proofs.RoundLemmas Proofs.FloatCalc Proofs.LinAlgLemmas Proofs.LapackLemmas Proofs.LogLemmas Proofs.DetLemmas.
Import ListNotations.
Local Open Scope R_scope.
Local Existing Instance textbook.

Lemma eta_tau0 : 1000000000000 * eta <= tau0.
Proof.
  unfold eta, tau0. apply Rle_trans with (bpow radix2 41 * (/ 2 * bpow radix2 (-1074))); [apply Rmult_le_compat_r; [pose proof (bpow_gt_0 radix2 (-1074)); lra|cbn; lra]|].
  replace (bpow radix2 41 * (/ 2 * bpow radix2 (-1074))) with (/ 2 * (bpow radix2 41 * bpow radix2 (-1074))) by ring. rewrite <- bpow_plus.
  apply Rle_trans with (bpow radix2 (41 + -1074)); [pose proof (bpow_gt_0 radix2 (41 + -1074)); lra|apply bpow_le; lia].
Qed.
Lemma tri1 u v : Rabs u <= Rabs v + Rabs (u - v).
Proof. replace u with (v + (u - v)) at 1 by ring. apply Rabs_triang. Qed.
Lemma recip_err p : fin p -> bpow radix2 (-1022) <= Rabs (v64 p) -> apx (b64_div mode_NE (B64 1) p) (/ v64 p) (ulp1 * Rabs (/ v64 p) + eta).
Proof.
  intros Fp H. pose proof (bpow_gt_0 radix2 (-1022)) as P. assert (N : v64 p <> 0) by (intros E; rewrite E, Rabs_R0 in H; lra).
  destruct (v_int 1 ltac:(lia)) as [F1 V1]. unfold apx, b64_div, v64 in *.
  match goal with |- context [Bdiv 53 1024 ?a ?b ?n ?m _ _] => pose proof (Bdiv_correct 53 1024 a b n m (B64 1) p N) as C end.
  rewrite V1 in C. unfold Rdiv in C. rewrite Rmult_1_l in C. rewrite Rlt_bool_true in C.
  - destruct C as (C1 & C2 & _). split; [eapply eq_trans; [exact C2|exact F1]|]. rewrite C1. apply rnd_err.
  - apply Rle_lt_trans with (bpow radix2 1022); [|apply bpow_lt; lia]. apply abs_round_le_generic; [apply fexp_correct; reflexivity|apply valid_rnd_N|apply generic_format_bpow; cbn; lia|].
    rewrite Rabs_inv. replace (bpow radix2 1022) with (/ bpow radix2 (-1022)) by (rewrite <- bpow_opp; reflexivity). apply Rinv_le; assumption.
Qed.
Lemma tiniest_v : fin tiniest /\ v64 tiniest = bpow radix2 (-1022).
Proof.
  assert (F2R2 : B2FF 53 1024 tiniest = F754_finite false (2 ^ 52) (-1074)) by (vm_compute; reflexivity).
  apply B2R_of in F2R2. destruct F2R2 as [Ft V]. split; [exact Ft|]. unfold v64. rewrite V. unfold F2R. cbn [Fnum Fexp cond_Zopp].
  change (IZR (Z.pos (2 ^ 52))) with (bpow radix2 52). rewrite <- bpow_plus. reflexivity.
Qed.
Lemma quot_from x p l : Rabs x <= Rabs p -> 0 < Rabs p <= 10000 -> Rabs (l - x / p) <= 2001/1000 * (ulp1 * Rabs (x / p)) + 20010 * eta ->
  Rabs l <= 1 + 4 * ulp1 /\ Rabs (x - l * p) <= 2002/1000 * (ulp1 * Rabs (l * p)) + 1000000000 * eta.
Proof.
  intros Hx [P0 P1] H. assert (N : p <> 0) by (intros E; rewrite E, Rabs_R0 in P0; lra).
  assert (C : Rabs (x / p) <= 1). { unfold Rdiv. rewrite Rabs_mult, Rabs_inv. apply Rmult_le_reg_r with (Rabs p); [exact P0|]. rewrite Rmult_assoc, Rinv_l, Rmult_1_r, Rmult_1_l by lra. exact Hx. }
  pose proof eta_pos as Ep. pose proof eta_lt as El. assert (U : 0 < ulp1 <= / 1000000000) by (unfold ulp1; lra).
  pose proof (Rabs_pos (x / p)) as C0. split.
  - pose proof (tri1 l (x / p)) as T. assert (ulp1 * Rabs (x / p) <= ulp1 * 1) by (apply Rmult_le_compat_l; lra). unfold ulp1 in *. lra.
  - replace (x - l * p) with (- ((l - x / p) * p)) by (field; exact N). rewrite Rabs_Ropp, Rabs_mult.
    assert (D : Rabs (l - x / p) * Rabs p <= 2001/1000 * (ulp1 * Rabs x) + 200100000 * eta).
    { apply Rle_trans with ((2001/1000 * (ulp1 * Rabs (x / p)) + 20010 * eta) * Rabs p); [apply Rmult_le_compat_r; lra|].
      replace ((2001/1000 * (ulp1 * Rabs (x / p)) + 20010 * eta) * Rabs p) with (2001/1000 * (ulp1 * (Rabs (x / p) * Rabs p)) + 20010 * (eta * Rabs p)) by ring.
      rewrite <- Rabs_mult. replace (x / p * p) with x by (field; exact N). assert (eta * Rabs p <= eta * 10000) by (apply Rmult_le_compat_l; lra). lra. }
    pose proof (tri1 x (l * p)) as T. replace (Rabs (x - l * p)) with (Rabs (l - x / p) * Rabs p) in T.
    2:{ rewrite <- Rabs_mult. rewrite <- Rabs_Ropp. f_equal. field. exact N. }
    pose proof (Rabs_pos (l * p)) as L0. pose proof (e_small (Rabs (l * p)) L0) as E1. pose proof (Rabs_pos x) as X0. pose proof (e_small (Rabs x) X0) as E2.
    assert (ulp1 * Rabs x <= ulp1 * (Rabs (l * p) + 3/1000000000 * Rabs x + 200100000 * eta)) by (apply Rmult_le_compat_l; lra).
    pose proof (e_small eta ltac:(lra)). lra.
Qed.
Lemma quot_ok recip x p : fin x -> fin p -> Rabs (v64 x) <= Rabs (v64 p) -> Rabs (v64 p) <= 10000 ->
  fin (quot recip x p) /\ Rabs (v64 (quot recip x p)) <= 1 + 4 * ulp1 /\ Rabs (v64 x - v64 (quot recip x p) * v64 p) <= 2002/1000 * (ulp1 * Rabs (v64 (quot recip x p) * v64 p)) + 1000000000 * eta.
Proof.
  intros Fx Fp Hx Hp. pose proof eta_pos as Ep. pose proof eta_lt as El. assert (U : 0 < ulp1 <= / 1000000000) by (unfold ulp1; lra). pose proof (is_zero_R p Fp) as Z. unfold quot. destruct (is_zero p) eqn:Z0.
  - assert (P0 : v64 p = 0) by (apply Z; reflexivity). rewrite P0, Rabs_R0 in Hx. assert (X0 : v64 x = 0) by (destruct (Req_dec (v64 x) 0) as [E|E]; [exact E|]; pose proof (Rabs_pos_lt _ E); lra).
    split; [exact Fx|]. rewrite X0, P0. replace (0 - 0 * 0) with 0 by ring. rewrite !Rmult_0_r, Rabs_R0. split; lra.
  - assert (N : v64 p <> 0) by (intros E; apply Z in E; discriminate). pose proof (Rabs_pos_lt _ N) as PP.
    assert (C : Rabs (v64 x / v64 p) <= 1). { unfold Rdiv. rewrite Rabs_mult, Rabs_inv. apply Rmult_le_reg_r with (Rabs (v64 p)); [exact PP|]. rewrite Rmult_assoc, Rinv_l, Rmult_1_r, Rmult_1_l by lra. exact Hx. }
    assert (B5 : 100000 <= bpow radix2 500) by (apply Rle_trans with (bpow radix2 17); [cbn; lra|apply bpow_le; lia]).
    pose proof (Rabs_pos (v64 x / v64 p)) as C0. pose proof (e_small _ C0) as Ec.
    destruct (recip && b64_le tiniest (b64_abs p)) eqn:K.
    + apply andb_true_iff in K. destruct K as [_ K]. destruct tiniest_v as [Ft Vt]. destruct (v_abs p) as [Va Fa]. rewrite b64_le_R, Vt, Va in K by (auto; apply Ft).
      assert (K' : bpow radix2 (-1022) <= Rabs (v64 p)) by (destruct (Rle_bool_spec (bpow radix2 (-1022)) (Rabs (v64 p))); [assumption|discriminate]).
      destruct (recip_err p Fp K') as [Fr Er]. set (r := b64_div mode_NE (B64 1) p) in *.
      assert (E1 : Rabs (v64 x * Bv r - v64 x / v64 p) <= ulp1 * Rabs (v64 x / v64 p) + 10000 * eta).
      { replace (v64 x * Bv r - v64 x / v64 p) with (v64 x * (Bv r - / v64 p)) by (unfold Rdiv; ring). rewrite Rabs_mult.
        apply Rle_trans with (Rabs (v64 x) * (ulp1 * Rabs (/ v64 p) + eta)); [apply Rmult_le_compat_l; [apply Rabs_pos|exact Er]|].
        unfold Rdiv. rewrite (Rabs_mult (v64 x)). assert (Rabs (v64 x) * eta <= 10000 * eta) by (apply Rmult_le_compat_r; lra). lra. }
      pose proof (tri1 (v64 x * Bv r) (v64 x / v64 p)) as T1.
      destruct (bmult_err x r Fx Fr) as [[Fm Em] _]. { unfold v64 in *. lra. }
      split; [exact Fm|]. apply quot_from; [exact Hx|lra|]. change (fmul Bnum x r) with (b64_mult mode_NE x r) in Em. fold (v64 x) in Em. fold (v64 (b64_mult mode_NE x r)) in Em.
      replace (v64 (b64_mult mode_NE x r) - v64 x / v64 p) with ((v64 (b64_mult mode_NE x r) - v64 x * Bv r) + (v64 x * Bv r - v64 x / v64 p)) by ring. eapply Rle_trans; [apply Rabs_triang|].
      assert (ulp1 * Rabs (v64 x * Bv r) <= ulp1 * (Rabs (v64 x / v64 p) + (/ 1000000000 * Rabs (v64 x / v64 p) + 10000 * eta))) by (apply Rmult_le_compat_l; lra).
      pose proof (e_small eta ltac:(lra)). lra.
    + destruct (bdiv_err x p Fx Fp N) as [[Fd Ed] _]. { fold (v64 x) (v64 p). lra. }
      split; [exact Fd|]. apply quot_from; [exact Hx|lra|]. fold (v64 x) (v64 p) in Ed. eapply Rle_trans; [exact Ed|]. lra.
Qed.
Lemma upd_ok fused y l q : fin y -> fin l -> fin q -> Rabs (v64 y) <= 100000 -> Rabs (v64 l * v64 q) <= 100000 ->
  fin (upd fused y l q) /\ Rabs (v64 y - (v64 l * v64 q + v64 (upd fused y l q))) <= 101/100 * (ulp1 * (Rabs (v64 l * v64 q) + Rabs (v64 (upd fused y l q)))) + 4 * eta.
Proof.
  intros Fy Fl Fq Hy Hq. pose proof eta_pos as Ep. pose proof eta_lt as El. assert (U : 0 < ulp1 <= / 1000000000) by (unfold ulp1; lra).
  assert (B5 : 1000000 <= bpow radix2 500) by (apply Rle_trans with (bpow radix2 20); [cbn; lra|apply bpow_le; lia]).
  assert (D : Rabs (v64 y - v64 l * v64 q) <= 200000) by (unfold Rminus; eapply Rle_trans; [apply Rabs_triang|]; rewrite Rabs_Ropp; lra).
  pose proof (Rabs_pos (v64 l * v64 q)) as P0. pose proof (e_small _ P0) as E0. pose proof (e_small eta ltac:(lra)) as Ee. unfold upd. destruct fused.
  - assert (Vo : Bv (b64_opp l) = - v64 l) by (unfold b64_opp; apply B2R_Bopp). assert (Fo : Bfin (b64_opp l) = true) by (unfold b64_opp; rewrite is_finite_Bopp; exact Fl).
    destruct (bfma_err (b64_opp l) q y Fo Fq Fy) as [[Fs Es] _]. { rewrite Vo. fold (v64 q) (v64 y). replace (- v64 l * v64 q + v64 y) with (v64 y - v64 l * v64 q) by ring. lra. }
    split; [exact Fs|]. rewrite Vo in Es. set (s := b64_fma mode_NE (b64_opp l) q y) in *. fold (v64 s) (v64 q) (v64 y) in Es. replace (- v64 l * v64 q + v64 y) with (v64 y - v64 l * v64 q) in Es by ring.
    replace (v64 y - (v64 l * v64 q + v64 s)) with (- (v64 s - (v64 y - v64 l * v64 q))) by ring. rewrite Rabs_Ropp.
    pose proof (tri1 (v64 y - v64 l * v64 q) (v64 s)) as T. rewrite Rabs_minus_sym in T at 1. rewrite (Rabs_minus_sym (v64 l * v64 q)) in T. rewrite (Rabs_minus_sym (v64 y - v64 l * v64 q) (v64 s)) in T. 
    set (d := Rabs (v64 y - v64 l * v64 q)) in *. pose proof (Rabs_pos (v64 s)) as S0. pose proof (e_small _ S0) as E1. assert (D0 : 0 <= d) by apply Rabs_pos. pose proof (e_small d D0) as E2.
    assert (ulp1 * d <= ulp1 * (Rabs (v64 s) + (ulp1 * d + eta))) by (apply Rmult_le_compat_l; lra). assert (ulp1 * (ulp1 * d) <= / 1000000000 * (ulp1 * d)) by (apply Rmult_le_compat_r; lra). lra.
  - destruct (bmult_err l q Fl Fq) as [[Ft Et] _]. { fold (v64 l) (v64 q). lra. } change (fmul Bnum l q) with (b64_mult mode_NE l q) in *. set (t := b64_mult mode_NE l q) in *. fold (v64 t) (v64 l) (v64 q) in Et.
    pose proof (tri1 (v64 t) (v64 l * v64 q)) as Tt.
    assert (D2 : Rabs (v64 y - v64 t) <= 300000) by (unfold Rminus; eapply Rle_trans; [apply Rabs_triang|]; rewrite Rabs_Ropp; lra).
    destruct (bminus_err y t Fy Ft) as [[Fs Es] _]. { fold (v64 y) (v64 t). lra. } change (fsub Bnum y t) with (b64_minus mode_NE y t) in *. set (s := b64_minus mode_NE y t) in *. fold (v64 s) (v64 y) (v64 t) in Es.
    split; [exact Fs|]. replace (v64 y - (v64 l * v64 q + v64 s)) with ((v64 t - v64 l * v64 q) + - (v64 s - (v64 y - v64 t))) by ring. eapply Rle_trans; [apply Rabs_triang|]. rewrite Rabs_Ropp.
    pose proof (tri1 (v64 y - v64 t) (v64 s)) as T. rewrite (Rabs_minus_sym (v64 y - v64 t) (v64 s)) in T.
    set (d := Rabs (v64 y - v64 t)) in *. pose proof (Rabs_pos (v64 s)) as S0. pose proof (e_small _ S0) as E1. assert (D0 : 0 <= d) by apply Rabs_pos. pose proof (e_small d D0) as E2.
    assert (ulp1 * d <= ulp1 * (Rabs (v64 s) + (ulp1 * d + eta))) by (apply Rmult_le_compat_l; lra). assert (ulp1 * (ulp1 * d) <= / 1000000000 * (ulp1 * d)) by (apply Rmult_le_compat_r; lra). lra.
Qed.
Lemma upd2_ok fused late y m p n q : fin y -> fin m -> fin p -> fin n -> fin q -> Rabs (v64 y) <= 10000 -> Rabs (v64 m * v64 p) <= 10000 -> Rabs (v64 n * v64 q) <= 10000 ->
  fin (upd2 fused late y m p n q) /\ Rabs (v64 y - (v64 m * v64 p + v64 n * v64 q + v64 (upd2 fused late y m p n q))) <=
    4 * (ulp1 * (Rabs (v64 m * v64 p) + Rabs (v64 n * v64 q) + Rabs (v64 (upd2 fused late y m p n q)))) + 20 * eta.
Proof.
  intros Fy Fm Fp Fn Fq Hy H1 H2. pose proof eta_pos as Ep. pose proof eta_lt as El. assert (U : 0 < ulp1 <= / 1000000000) by (unfold ulp1; lra).
  assert (B5 : 1000000 <= bpow radix2 500) by (apply Rle_trans with (bpow radix2 20); [cbn; lra|apply bpow_le; lia]).
  pose proof (Rabs_pos (v64 m * v64 p)) as P1. pose proof (e_small _ P1) as E1. pose proof (Rabs_pos (v64 n * v64 q)) as P2. pose proof (e_small _ P2) as E2. pose proof (e_small eta ltac:(lra)) as Ee.
  unfold upd2. destruct late.
  - set (t := if fused then b64_fma mode_NE n q (b64_mult mode_NE m p) else b64_plus mode_NE (b64_mult mode_NE m p) (b64_mult mode_NE n q)).
    assert (T : fin t /\ Rabs (v64 t - (v64 m * v64 p + v64 n * v64 q)) <= 21/10 * (ulp1 * (Rabs (v64 m * v64 p) + Rabs (v64 n * v64 q))) + 5 * eta).
    { destruct (bmult_err m p Fm Fp) as [[F1 G1] _]. { fold (v64 m) (v64 p). lra. } change (fmul Bnum m p) with (b64_mult mode_NE m p) in *. set (t1 := b64_mult mode_NE m p) in *. fold (v64 t1) (v64 m) (v64 p) in G1.
      pose proof (tri1 (v64 t1) (v64 m * v64 p)) as T1. unfold t. destruct fused.
      - assert (D : Rabs (v64 n * v64 q + v64 t1) <= Rabs (v64 n * v64 q) + Rabs (v64 t1)) by apply Rabs_triang.
        destruct (bfma_err n q t1 Fn Fq F1) as [[F2 G2] _]. { fold (v64 n) (v64 q) (v64 t1). lra. } split; [exact F2|]. set (t2 := b64_fma mode_NE n q t1) in *. fold (v64 t2) (v64 n) (v64 q) (v64 t1) in G2.
        replace (v64 t2 - (v64 m * v64 p + v64 n * v64 q)) with ((v64 t2 - (v64 n * v64 q + v64 t1)) + (v64 t1 - v64 m * v64 p)) by ring. eapply Rle_trans; [apply Rabs_triang|].
        assert (ulp1 * Rabs (v64 n * v64 q + v64 t1) <= ulp1 * (Rabs (v64 n * v64 q) + (Rabs (v64 m * v64 p) + (/ 1000000000 * Rabs (v64 m * v64 p) + eta)))) by (apply Rmult_le_compat_l; lra). lra.
      - destruct (bmult_err n q Fn Fq) as [[F2 G2] _]. { fold (v64 n) (v64 q). lra. } change (fmul Bnum n q) with (b64_mult mode_NE n q) in *. set (t2 := b64_mult mode_NE n q) in *. fold (v64 t2) (v64 n) (v64 q) in G2.
        pose proof (tri1 (v64 t2) (v64 n * v64 q)) as T2.
        assert (D : Rabs (v64 t1 + v64 t2) <= Rabs (v64 t1) + Rabs (v64 t2)) by apply Rabs_triang.
        destruct (bplus_err t1 t2 F1 F2) as [[F3 G3] _]. { fold (v64 t1) (v64 t2). lra. } change (fadd Bnum t1 t2) with (b64_plus mode_NE t1 t2) in *. split; [exact F3|]. set (t3 := b64_plus mode_NE t1 t2) in *. fold (v64 t3) (v64 t1) (v64 t2) in G3.
        replace (v64 t3 - (v64 m * v64 p + v64 n * v64 q)) with ((v64 t3 - (v64 t1 + v64 t2)) + (v64 t1 - v64 m * v64 p) + (v64 t2 - v64 n * v64 q)) by ring.
        eapply Rle_trans; [apply Rabs_triang|]. eapply Rle_trans; [apply Rplus_le_compat_r; apply Rabs_triang|].
        assert (ulp1 * Rabs (v64 t1 + v64 t2) <= ulp1 * ((1 + / 1000000000) * (Rabs (v64 m * v64 p) + Rabs (v64 n * v64 q)) + 2 * eta)) by (apply Rmult_le_compat_l; lra). lra. }
    clearbody t. destruct T as [Ft T]. pose proof (tri1 (v64 t) (v64 m * v64 p + v64 n * v64 q)) as T1. pose proof (Rabs_triang (v64 m * v64 p) (v64 n * v64 q)) as T2.
    assert (D2 : Rabs (v64 y - v64 t) <= 300000) by (unfold Rminus; eapply Rle_trans; [apply Rabs_triang|]; rewrite Rabs_Ropp; lra).
    destruct (bminus_err y t Fy Ft) as [[Fs Es] _]. { fold (v64 y) (v64 t). lra. } change (fsub Bnum y t) with (b64_minus mode_NE y t) in *. set (s := b64_minus mode_NE y t) in *. fold (v64 s) (v64 y) (v64 t) in Es.
    split; [exact Fs|]. replace (v64 y - (v64 m * v64 p + v64 n * v64 q + v64 s)) with ((v64 t - (v64 m * v64 p + v64 n * v64 q)) + - (v64 s - (v64 y - v64 t))) by ring. eapply Rle_trans; [apply Rabs_triang|]. rewrite Rabs_Ropp.
    pose proof (tri1 (v64 y - v64 t) (v64 s)) as T3. rewrite (Rabs_minus_sym (v64 y - v64 t) (v64 s)) in T3.
    set (d := Rabs (v64 y - v64 t)) in *. pose proof (Rabs_pos (v64 s)) as S0. pose proof (e_small _ S0) as E4. assert (D0 : 0 <= d) by apply Rabs_pos. pose proof (e_small d D0) as E5.
    assert (ulp1 * d <= ulp1 * (Rabs (v64 s) + (ulp1 * d + eta))) by (apply Rmult_le_compat_l; lra). assert (ulp1 * (ulp1 * d) <= / 1000000000 * (ulp1 * d)) by (apply Rmult_le_compat_r; lra). lra.
  - destruct (upd_ok fused y m p Fy Fm Fp ltac:(lra) ltac:(lra)) as [F1 G1]. set (c := upd fused y m p) in *.
    pose proof (Rabs_pos (v64 c)) as C0. pose proof (e_small _ C0) as E3.
    assert (Cb : Rabs (v64 c) <= 100000).
    { replace (v64 c) with (v64 y + - (v64 m * v64 p) + - (v64 y - (v64 m * v64 p + v64 c))) at 1 by ring. eapply Rle_trans; [apply Rabs_triang|]. eapply Rle_trans; [apply Rplus_le_compat_r; apply Rabs_triang|]. rewrite !Rabs_Ropp. 
      assert (Cr : Rabs (v64 c) <= Rabs (v64 y) + Rabs (v64 m * v64 p) + Rabs (v64 y - (v64 m * v64 p + v64 c))).
      { replace (v64 c) with (v64 y + - (v64 m * v64 p) + - (v64 y - (v64 m * v64 p + v64 c))) at 1 by ring. eapply Rle_trans; [apply Rabs_triang|]. eapply Rle_trans; [apply Rplus_le_compat_r; apply Rabs_triang|]. rewrite !Rabs_Ropp. lra. }
      lra. }
    destruct (upd_ok fused c n q F1 Fn Fq ltac:(lra) ltac:(lra)) as [F2 G2]. set (s := upd fused c n q) in *. split; [exact F2|].
    pose proof (Rabs_pos (v64 s)) as S0. pose proof (e_small _ S0) as E4.
    pose proof (tri1 (v64 c) (v64 n * v64 q + v64 s)) as T1. pose proof (Rabs_triang (v64 n * v64 q) (v64 s)) as T2.
    replace (v64 y - (v64 m * v64 p + v64 n * v64 q + v64 s)) with ((v64 y - (v64 m * v64 p + v64 c)) + (v64 c - (v64 n * v64 q + v64 s))) by ring. eapply Rle_trans; [apply Rabs_triang|].
    assert (ulp1 * Rabs (v64 c) <= ulp1 * ((1 + 1/1000) * (Rabs (v64 n * v64 q) + Rabs (v64 s)) + 4 * eta)) by (apply Rmult_le_compat_l; lra). lra.
Qed.
(** Both rows below the pivot, the second one eliminated by the first. *)
Lemma near_of1 r t : Rabs (r - t) <= 5 * (ulp1 * Rabs t) + tau0 -> near r [t].
Proof. unfold near. cbn [fold_right map]. rewrite u53_ulp, !Rplus_0_r. fold tau0. lra. Qed.
Lemma near_of2 r t s : Rabs (r - (t + s)) <= 5 * (ulp1 * (Rabs t + Rabs s)) + tau0 -> near r [t; s].
Proof. unfold near. cbn [fold_right map]. rewrite u53_ulp, !Rplus_0_r. fold tau0. lra. Qed.
Lemma near_of3 r t s q : Rabs (r - (t + s + q)) <= 5 * (ulp1 * (Rabs t + Rabs s + Rabs q)) + tau0 -> near r [t; s; q].
Proof. unfold near. cbn [fold_right map]. rewrite u53_ulp, !Rplus_0_r. fold tau0. replace (t + (s + q)) with (t + s + q) by ring. lra. Qed.
Lemma near_self r : near r [r].
Proof. apply near_of1. replace (r - r) with 0 by ring. rewrite Rabs_R0. pose proof (e_small (Rabs r) (Rabs_pos r)). pose proof (bpow_gt_0 radix2 (-1000)). unfold tau0. lra. Qed.
Section Core.
Variables (recip fused late : bool) (M : R) (a0 a1 a2 b0 b1 b2 c0 c1 c2 : binary64).
Hypothesis HM : 1/1000 <= M <= 1001.
Hypothesis (A : row_le M (a0, a1, a2)) (B : row_le M (b0, b1, b2)) (C : row_le M (c0, c1, c2)).
Hypothesis (Lb : Rabs (v64 b0) <= Rabs (v64 a0)) (Lc : Rabs (v64 c0) <= Rabs (v64 a0)).
Let l := quot recip b0 a0.
Let m := quot recip c0 a0.
Let p := upd fused b1 l a1.
Let q := upd fused c1 m a1.
Lemma col : fin p /\ fin q.
Proof.
  destruct A as ([Fa0 Ha0] & [Fa1 Ha1] & _), B as ([Fb0 Hb0] & [Fb1 Hb1] & _), C as ([Fc0 Hc0] & [Fc1 Hc1] & _).
  change (B2R 53 1024 a0) with (v64 a0) in *. change (B2R 53 1024 a1) with (v64 a1) in *. change (B2R 53 1024 b1) with (v64 b1) in *. change (B2R 53 1024 c1) with (v64 c1) in *.
  destruct (quot_ok recip b0 a0 Fb0 Fa0 Lb ltac:(lra)) as (Fl & Hl & _). destruct (quot_ok recip c0 a0 Fc0 Fa0 Lc ltac:(lra)) as (Fm & Hm & _). fold l in Fl, Hl. fold m in Fm, Hm.
  assert (U : 0 < ulp1 <= / 1000000000) by (unfold ulp1; lra).
  assert (Pr : forall x y, Rabs x <= 1 + 4 * ulp1 -> Rabs y <= M -> Rabs (x * y) <= 10000). { intros x y Hx Hy. rewrite Rabs_mult. apply Rle_trans with (2 * 1001); [apply Rmult_le_compat; try apply Rabs_pos; lra|lra]. }
  destruct (upd_ok fused b1 l a1 Fb1 Fl Fa1 ltac:(lra) ltac:(pose proof (Pr _ _ Hl Ha1); lra)) as [Fp _].
  destruct (upd_ok fused c1 m a1 Fc1 Fm Fa1 ltac:(lra) ltac:(pose proof (Pr _ _ Hm Ha1); lra)) as [Fq _]. split; assumption.
Qed.
Let n := quot recip q p.
Let s := upd fused b2 l a2.
Let w := upd2 fused late c2 m a2 n s.
Hypothesis Lq : Rabs (v64 q) <= Rabs (v64 p).
Lemma core : Forall fin [l; m; n; a0; a1; a2; p; s; w] /\ Forall (fun x => Rabs (v64 x) <= 1 + 4 * u53) [l; m; n] /\
  near (v64 b0) [v64 l * v64 a0] /\ near (v64 b1) [v64 l * v64 a1; v64 p] /\ near (v64 b2) [v64 l * v64 a2; v64 s] /\
  near (v64 c0) [v64 m * v64 a0] /\ near (v64 c1) [v64 m * v64 a1; v64 n * v64 p] /\ near (v64 c2) [v64 m * v64 a2; v64 n * v64 s; v64 w].
Proof.
  destruct A as ([Fa0 Ha0] & [Fa1 Ha1] & [Fa2 Ha2]), B as ([Fb0 Hb0] & [Fb1 Hb1] & [Fb2 Hb2]), C as ([Fc0 Hc0] & [Fc1 Hc1] & [Fc2 Hc2]).
  repeat match goal with H : context [B2R 53 1024 ?x] |- _ => change (B2R 53 1024 x) with (v64 x) in H end.
  destruct (quot_ok recip b0 a0 Fb0 Fa0 Lb ltac:(lra)) as (Fl & Hl & El). destruct (quot_ok recip c0 a0 Fc0 Fa0 Lc ltac:(lra)) as (Fm & Hm & Em). fold l in Fl, Hl, El. fold m in Fm, Hm, Em.
  assert (U : 0 < ulp1 <= / 1000000000) by (unfold ulp1; lra). pose proof eta_pos as Ep. pose proof eta_lt as Ee. pose proof eta_tau0 as Et.
  assert (Pr : forall x y, Rabs x <= 1 + 4 * ulp1 -> Rabs y <= 4000 -> Rabs (x * y) <= 4001). { intros x y Hx Hy. rewrite Rabs_mult. apply Rle_trans with ((1 + 4 * ulp1) * 4000); [apply Rmult_le_compat; try apply Rabs_pos; lra|lra]. }
  pose proof (Pr _ _ Hl (Rle_trans _ M 4000 Ha1 ltac:(lra))) as Q1. pose proof (Pr _ _ Hm (Rle_trans _ M 4000 Ha1 ltac:(lra))) as Q2. pose proof (Pr _ _ Hl (Rle_trans _ M 4000 Ha2 ltac:(lra))) as Q3. pose proof (Pr _ _ Hm (Rle_trans _ M 4000 Ha2 ltac:(lra))) as Q4.
  assert (Pr1 : forall x y, Rabs x <= 1 + 4 * ulp1 -> Rabs y <= M -> Rabs (x * y) <= 1002). { intros x y Hx Hy. rewrite Rabs_mult. apply Rle_trans with ((1 + 4 * ulp1) * 1001); [apply Rmult_le_compat; try apply Rabs_pos; lra|lra]. }
  pose proof (Pr1 _ _ Hl Ha1) as R1. pose proof (Pr1 _ _ Hm Ha1) as R2. pose proof (Pr1 _ _ Hl Ha2) as R3. pose proof (Pr1 _ _ Hm Ha2) as R4.
  destruct (upd_ok fused b1 l a1 Fb1 Fl Fa1 ltac:(lra) ltac:(lra)) as [Fp Gp]. fold p in Fp, Gp.
  destruct (upd_ok fused c1 m a1 Fc1 Fm Fa1 ltac:(lra) ltac:(lra)) as [Fq Gq]. fold q in Fq, Gq.
  destruct (upd_ok fused b2 l a2 Fb2 Fl Fa2 ltac:(lra) ltac:(lra)) as [Fs Gs]. fold s in Fs, Gs.
  assert (Sz : forall y t v, Rabs y <= M -> Rabs t <= 1002 -> Rabs (y - (t + v)) <= 101/100 * (ulp1 * (Rabs t + Rabs v)) + 4 * eta -> Rabs v <= 3000).
  { intros y t v Hy Ht H. assert (T : Rabs v <= Rabs y + Rabs t + Rabs (y - (t + v))).
    { replace v with (y + - t + - (y - (t + v))) at 1 by ring. eapply Rle_trans; [apply Rabs_triang|]. eapply Rle_trans; [apply Rplus_le_compat_r; apply Rabs_triang|]. rewrite !Rabs_Ropp. lra. }
    pose proof (Rabs_pos t). pose proof (Rabs_pos v). pose proof (e_small (Rabs t + Rabs v) ltac:(lra)). lra. }
  pose proof (Sz _ _ _ Hb1 R1 Gp) as Sp. pose proof (Sz _ _ _ Hb2 R3 Gs) as Ss.
  destruct (quot_ok recip q p Fq Fp Lq ltac:(lra)) as (Fn & Hn & En). fold n in Fn, Hn, En.
  pose proof (Pr _ _ Hn (Rle_trans _ 3000 4000 Ss ltac:(lra))) as Q5.
  destruct (upd2_ok fused late c2 m a2 n s Fc2 Fm Fa2 Fn Fs ltac:(lra) ltac:(lra) ltac:(lra)) as [Fw Gw]. fold w in Fw, Gw.
  split; [repeat (apply Forall_cons; [assumption|]); apply Forall_nil|]. rewrite u53_ulp. split; [repeat (apply Forall_cons; [assumption|]); apply Forall_nil|].
  assert (Pos : forall x, 0 <= ulp1 * Rabs x) by (intros x; apply e_small; apply Rabs_pos).
  split; [apply near_of1; pose proof (Pos (v64 l * v64 a0)); lra|]. split; [apply near_of2; pose proof (Pos (v64 l * v64 a1)); pose proof (Pos (v64 p)); lra|]. split; [apply near_of2; pose proof (Pos (v64 l * v64 a2)); pose proof (Pos (v64 s)); lra|].
  split; [apply near_of1; pose proof (Pos (v64 m * v64 a0)); lra|]. split.
  - apply near_of2. replace (v64 c1 - (v64 m * v64 a1 + v64 n * v64 p)) with ((v64 c1 - (v64 m * v64 a1 + v64 q)) + (v64 q - v64 n * v64 p)) by ring. eapply Rle_trans; [apply Rabs_triang|].
    pose proof (tri1 (v64 q) (v64 n * v64 p)) as T. pose proof (Pos (v64 m * v64 a1)). pose proof (Rabs_pos (v64 n * v64 p)) as P0. pose proof (e_small _ P0) as E0.
    assert (ulp1 * Rabs (v64 q) <= ulp1 * ((1 + 1/1000) * Rabs (v64 n * v64 p) + 1000000000 * eta)) by (apply Rmult_le_compat_l; lra). pose proof (e_small eta ltac:(lra)). lra.
  - apply near_of3. pose proof (Pos (v64 m * v64 a2)). pose proof (Pos (v64 n * v64 s)). pose proof (Pos (v64 w)). lra.
Qed.
End Core.
Lemma bigger_R x y : fin x -> fin y -> bigger x y = Rlt_bool (Rabs (v64 y)) (Rabs (v64 x)).
Proof. intros Fx Fy. unfold bigger. destruct (v_abs x) as [Vx Gx], (v_abs y) as [Vy Gy]. rewrite b64_lt_R by auto. rewrite Vx, Vy. reflexivity. Qed.
Lemma bigger_true x y : fin x -> fin y -> bigger x y = true -> Rabs (v64 y) <= Rabs (v64 x).
Proof. intros Fx Fy. rewrite bigger_R by assumption. destruct (Rlt_bool_spec (Rabs (v64 y)) (Rabs (v64 x))); [lra|discriminate]. Qed.
Lemma bigger_false x y : fin x -> fin y -> bigger x y = false -> Rabs (v64 x) <= Rabs (v64 y).
Proof. intros Fx Fy. rewrite bigger_R by assumption. destruct (Rlt_bool_spec (Rabs (v64 y)) (Rabs (v64 x))); [discriminate|lra]. Qed.

Lemma getrf_accurate recip fused late : getrf_ok (getrf recip fused late).
Proof.
  intros M [[x0 x1] x2] [[y0 y1] y2] [[z0 z1] z2] HM Hx Hy Hz. cbv zeta. unfold getrf.
  set (p1 := if bigger y0 x0 then _ else _).
  assert (Fx : fin x0) by apply Hx. assert (Fy : fin y0) by apply Hy. assert (Fz : fin z0) by apply Hz.
  assert (P : exists a b c, interchange p1 2 (x0, x1, x2) (y0, y1, y2) (z0, z1, z2) = (a, b, c) /\ interchange p1 3 (x0, x1, x2) (y0, y1, y2) (z0, z1, z2) = (a, c, b) /\ (1 <= p1 <= 3)%nat /\ row_le M a /\ row_le M b /\ row_le M c /\
    Rabs (v64 (fst (fst b))) <= Rabs (v64 (fst (fst a))) /\ Rabs (v64 (fst (fst c))) <= Rabs (v64 (fst (fst a)))).
  { unfold p1. destruct (bigger y0 x0) eqn:B1.
    - apply bigger_true in B1; auto. destruct (bigger z0 y0) eqn:B2; [apply bigger_true in B2|apply bigger_false in B2]; auto; cbn [interchange]; do 3 eexists; (split; [reflexivity|]; split; [reflexivity|]; split; [lia|]; do 3 (split; [assumption|])); cbn [fst]; split; lra.
    - apply bigger_false in B1; auto. destruct (bigger z0 x0) eqn:B2; [apply bigger_true in B2|apply bigger_false in B2]; auto; cbn [interchange]; do 3 eexists; (split; [reflexivity|]; split; [reflexivity|]; split; [lia|]; do 3 (split; [assumption|])); cbn [fst]; split; lra. }
  clearbody p1. destruct P as ([[a0 a1] a2] & [[b0 b1] b2] & [[c0 c1] c2] & I2 & I3 & Hp & Ra & Rb & Rc & Lb & Lc). cbn [fst] in Lb, Lc. rewrite I2.
  destruct (col recip fused M a0 a1 a2 b0 b1 b2 c0 c1 c2 HM Ra Rb Rc Lb Lc) as [Fp Fq].
  destruct (bigger (upd fused c1 (quot recip c0 a0) a1) (upd fused b1 (quot recip b0 a0) a1)) eqn:Bq.
  - apply bigger_true in Bq; auto. cbn [ipiv1 ipiv2 l21 l31 l32 u11 u12 u13 u22 u23 u33]. rewrite I3. cbn [val3].
    destruct (core recip fused late M a0 a1 a2 c0 c1 c2 b0 b1 b2 HM Ra Rc Rb Lc Lb Bq) as (K1 & K2 & K3 & K4 & K5 & K6 & K7 & K8).
    split; [exact Hp|]. split; [lia|]. split; [exact K1|]. split; [exact K2|]. split; [apply near_self|]. split; [apply near_self|]. split; [apply near_self|]. exact (conj K3 (conj K4 (conj K5 (conj K6 (conj K7 K8))))).
  - apply bigger_false in Bq; auto. cbn [ipiv1 ipiv2 l21 l31 l32 u11 u12 u13 u22 u23 u33]. rewrite I2. cbn [val3].
    destruct (core recip fused late M a0 a1 a2 b0 b1 b2 c0 c1 c2 HM Ra Rb Rc Lb Lc Bq) as (K1 & K2 & K3 & K4 & K5 & K6 & K7 & K8).
    split; [exact Hp|]. split; [lia|]. split; [exact K1|]. split; [exact K2|]. split; [apply near_self|]. split; [apply near_self|]. split; [apply near_self|]. exact (conj K3 (conj K4 (conj K5 (conj K6 (conj K7 K8))))).
Qed.
