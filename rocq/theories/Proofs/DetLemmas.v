(** np.linalg.det from accurate factors, logarithms and exponentials. *)
From Coq Require Import Reals List ZArith Bool Lia Lra Psatz Arith.
From Flocq Require Import Core IEEE754.BinarySingleNaN IEEE754.Binary IEEE754.Bits.
From Verif Require Import Base.Res Model.Num Model.LinAlg Model.Lapack Spec.LinAlg Spec.Lapack Spec.Space Proofs.MachineLemmas Proofs.RoundLemmas Proofs.FloatCalc Proofs.LinAlgLemmas Proofs.LapackLemmas Proofs.LogLemmas.
Import ListNotations.
Local Open Scope R_scope.
Local Existing Instance textbook.

Lemma b64_lt_R x y : fin x -> fin y -> b64_lt x y = Rlt_bool (v64 x) (v64 y).
Proof.
  intros Fx Fy. unfold b64_lt, v64. rewrite Bcompare_correct by assumption. unfold Rlt_bool. destruct (Rcompare _ _); reflexivity.
Qed.
Lemma b64_le_R x y : fin x -> fin y -> b64_le x y = Rle_bool (v64 x) (v64 y).
Proof.
  intros Fx Fy. unfold b64_le, v64. rewrite Bcompare_correct by assumption. unfold Rle_bool. destruct (Rcompare _ _); reflexivity.
Qed.
Lemma v_abs x : v64 (b64_abs x) = Rabs (v64 x) /\ (fin x -> fin (b64_abs x)).
Proof. unfold v64, fin, b64_abs. split; [apply B2R_Babs|]. intros H. rewrite is_finite_Babs. exact H. Qed.
Lemma v_int z : (Z.abs z <= 2 ^ 53)%Z -> fin (B64 z) /\ v64 (B64 z) = IZR z.
Proof. intros H. destruct (apx_Z z H) as [[Fz _] V]. split; [exact Fz|exact V]. Qed.
Lemma is_zero_R x : fin x -> is_zero x = true <-> v64 x = 0.
Proof.
  intros Fx. unfold v64. destruct x as [s|s|s pl e|s m e B]; cbn in *; try discriminate; [split; reflexivity|].
  split; [discriminate|]. intros H. exfalso. apply eq_0_F2R in H. destruct s; cbn in H; discriminate H.
Qed.
Lemma unit_mult s x : fin x -> fin (b64_mult mode_NE (if s : bool then B64 (-1) else B64 1) x) /\ v64 (b64_mult mode_NE (if s then B64 (-1) else B64 1) x) = (if s then -1 else 1) * v64 x.
Proof.
  intros Fx. assert (K : forall z, z = (-1)%Z \/ z = 1%Z -> fin (b64_mult mode_NE (B64 z) x) /\ v64 (b64_mult mode_NE (B64 z) x) = IZR z * v64 x).
  { intros z Hz. destruct (v_int z ltac:(lia)) as [Fz V]. unfold b64_mult, fin, v64 in *.
    match goal with |- context [Bmult 53 1024 ?a ?b ?n ?m _ _] => pose proof (Bmult_correct 53 1024 a b n m (B64 z) x) as C end.
    rewrite V in C. rewrite (round_generic radix2 _ _ (IZR z * Bv x)) in C.
    2:{ destruct Hz; subst z; [replace (-1 * Bv x) with (- Bv x) by ring; apply generic_format_opp|rewrite Rmult_1_l]; apply generic_format_B2R. }
    rewrite Rlt_bool_true in C.
    2:{ replace (Rabs (IZR z * Bv x)) with (Rabs (Bv x)); [apply abs_B2R_lt_emax|]. destruct Hz; subst z; [replace (-1 * Bv x) with (- Bv x) by ring; rewrite Rabs_Ropp|rewrite Rmult_1_l]; reflexivity. }
    destruct C as (C1 & C2 & _). split; [|exact C1]. eapply eq_trans; [exact C2|]. rewrite Fz, Fx. reflexivity. }
  destruct s; apply K; auto.
Qed.
Lemma interchange_det M p1 p2 x y z : (1 <= p1 <= 3)%nat -> (2 <= p2 <= 3)%nat -> row_le M x -> row_le M y -> row_le M z ->
  let '(a, b, c) := interchange p1 p2 x y z in row_le M a /\ row_le M b /\ row_le M c /\
  triple3 (val3 x) (val3 y) (val3 z) = (if xorb (negb (p1 =? 1)%nat) (negb (p2 =? 2)%nat) then -1 else 1) * triple3 (val3 a) (val3 b) (val3 c).
Proof.
  intros H1 H2 Hx Hy Hz. assert (P1 : p1 = 1%nat \/ p1 = 2%nat \/ p1 = 3%nat) by lia. assert (P2 : p2 = 2%nat \/ p2 = 3%nat) by lia.
  destruct P1 as [-> | [-> | ->]], P2 as [-> | ->]; cbn [interchange Nat.eqb negb xorb]; (split; [assumption|]; split; [assumption|]; split; [assumption|]);
    destruct x as [[x0 x1] x2], y as [[y0 y1] y2], z as [[z0 z1] z2]; unfold triple3; cbn [val3 cross3 dot3]; ring.
Qed.
Lemma row_vals M x : row_le M x -> let '(a, b, c) := val3 x in Rabs a <= M /\ Rabs b <= M /\ Rabs c <= M.
Proof. destruct x as [[a b] c]. intros ([_ A] & [_ B] & [_ C]). cbn [val3]. auto. Qed.
Lemma abs_sign x : x = (if Rlt_bool x 0 then -1 else 1) * Rabs x.
Proof. destruct (Rlt_bool_spec x 0) as [H|H]; [rewrite Rabs_left by exact H|rewrite Rabs_right by lra]; ring. Qed.

Lemma det_numpy_ok lg ex getrf : log_ok lg -> exp_ok ex -> getrf_ok getrf -> det_ok (det_numpy lg ex getrf).
Proof.
  intros HL HE HG M x y z HM Hx Hy Hz. pose proof (HG M x y z HM Hx Hy Hz) as H. cbv zeta in H. unfold det_numpy. set (f := getrf x y z) in *.
  destruct H as (I1 & I2 & Fs & Ls & H). pose proof (interchange_det M _ _ x y z I1 I2 Hx Hy Hz) as Id.
  destruct (interchange (ipiv1 f) (ipiv2 f) x y z) as [[a b] c]. destruct Id as (Ra & Rb & Rc & Ed).
  apply row_vals in Ra, Rb, Rc. rewrite Ed. clear Ed.
  destruct (val3 a) as [[a0 a1] a2], (val3 b) as [[b0 b1] b2], (val3 c) as [[c0 c1] c2].
  destruct Ra as (A0 & A1 & A2), Rb as (B0 & B1 & B2), Rc as (C0 & C1 & C2). destruct H as (N1 & N2 & N3 & N4 & N5 & N6 & N7 & N8 & N9).
  replace (triple3 (a0, a1, a2) (b0, b1, b2) (c0, c1, c2)) with (det9 a0 a1 a2 b0 b1 b2 c0 c1 c2) by (unfold triple3, det9; cbn [cross3 dot3]; ring).
  apply Forall_cons_iff in Fs. destruct Fs as [_ Fs]. apply Forall_cons_iff in Fs. destruct Fs as [_ Fs]. apply Forall_cons_iff in Fs. destruct Fs as [_ Fs].
  apply Forall_cons_iff in Fs. destruct Fs as [F1 Fs]. apply Forall_cons_iff in Fs. destruct Fs as [_ Fs]. apply Forall_cons_iff in Fs. destruct Fs as [_ Fs].
  apply Forall_cons_iff in Fs. destruct Fs as [F2 Fs]. apply Forall_cons_iff in Fs. destruct Fs as [_ Fs]. apply Forall_cons_iff in Fs. destruct Fs as [F3 _].
  rewrite u53_ulp in Ls.
  assert (Lv : Forall (fun l => Rabs l <= 1 + 4 * ulp1) [v64 (l21 f); v64 (l31 f); v64 (l32 f)]).
  { apply Forall_cons_iff in Ls. destruct Ls as [K1 Ls]. apply Forall_cons_iff in Ls. destruct Ls as [K2 Ls]. apply Forall_cons_iff in Ls. destruct Ls as [K3 _].
    repeat (apply Forall_cons; [assumption|]). apply Forall_nil. }
  assert (Av : Forall (fun x => Rabs x <= M) [a0; a1; a2; b0; b1; b2; c0; c1; c2]) by (repeat (apply Forall_cons; [assumption|]); apply Forall_nil).
  destruct (lu_det M a0 a1 a2 b0 b1 b2 c0 c1 c2 _ _ _ _ _ _ _ _ _ HM Av Lv N1 N2 N3 N4 N5 N6 N7 N8 N9) as (P1 & P2 & P3 & D).
  clear N1 N2 N3 N4 N5 N6 N7 N8 N9 Av Lv Ls. set (det := det9 a0 a1 a2 b0 b1 b2 c0 c1 c2) in *. clearbody det.
  fold u53. rewrite u53_ulp. rewrite Rmult_assoc.
  assert (Q : 0 <= ulp1 * M ^ 3) by (apply Rmult_le_pos; [unfold ulp1; lra|apply pow_le; lra]).
  set (odd := xorb (negb (ipiv1 f =? 1)%nat) (negb (ipiv2 f =? 2)%nat)).
  assert (So : Rabs (if odd then -1 else 1) = 1) by (destruct odd; [rewrite Rabs_left|rewrite Rabs_right]; lra).
  pose proof (is_zero_R (u11 f) F1) as Z1. pose proof (is_zero_R (u22 f) F2) as Z2. pose proof (is_zero_R (u33 f) F3) as Z3.
  unfold det_of. destruct (is_zero (u11 f) || is_zero (u22 f) || is_zero (u33 f)) eqn:Z.
  - destruct (v_int 0 ltac:(lia)) as [F0 V0]. split; [exact F0|]. fold (v64 (B64 0)). rewrite V0.
    assert (E0 : v64 (u11 f) * v64 (u22 f) * v64 (u33 f) = 0).
    { apply orb_true_iff in Z. destruct Z as [Z|Z]; [apply orb_true_iff in Z; destruct Z as [Z|Z]; [rewrite (proj1 Z1 Z)|rewrite (proj1 Z2 Z)]|rewrite (proj1 Z3 Z)]; ring. }
    rewrite E0, Rminus_0_r in D. replace (0 - (if odd then -1 else 1) * det) with (- ((if odd then -1 else 1) * det)) by ring. rewrite Rabs_Ropp, Rabs_mult, So. lra.
  - apply orb_false_iff in Z. destruct Z as [Z Z3']. apply orb_false_iff in Z. destruct Z as [Z1' Z2'].
    assert (NZ : forall u, is_zero u = false -> (is_zero u = true <-> v64 u = 0) -> 0 < Rabs (v64 u)) by (intros u E1 E2; apply Rabs_pos_lt; intros E3; apply E2 in E3; congruence).
    pose proof (NZ _ Z1' Z1) as W1. pose proof (NZ _ Z2' Z2) as W2. pose proof (NZ _ Z3' Z3) as W3.
    destruct (v_abs (u11 f)) as [V1 G1]. destruct (v_abs (u22 f)) as [V2 G2]. destruct (v_abs (u33 f)) as [V3 G3].
    pose proof (exp_prod lg ex M (b64_abs (u11 f)) (b64_abs (u22 f)) (b64_abs (u33 f)) HL HE HM (G1 F1) (G2 F2) (G3 F3)) as Ep.
    rewrite V1, V2, V3 in Ep. cbv zeta in Ep. specialize (Ep (conj W1 P1) (conj W2 P2) (conj W3 P3)). destruct Ep as [Fr Er]. cbv zeta. fold odd.
    destruct (v_int 0 ltac:(lia)) as [F0 V0]. rewrite !b64_lt_R, V0 by assumption. change (IZR 0) with 0.
    match goal with |- context [b64_mult mode_NE (if ?s then _ else _) ?r] => destruct (unit_mult s r Fr) as [Fm Vm]; set (sg := s) in *; set (rr := r) in * end.
    split; [exact Fm|]. fold (v64 (b64_mult mode_NE (if sg then B64 (-1) else B64 1) rr)). rewrite Vm.
    assert (Eq : (if sg then -1 else 1) = (if odd then -1 else 1) * (if Rlt_bool (v64 (u11 f)) 0 then -1 else 1) * (if Rlt_bool (v64 (u22 f)) 0 then -1 else 1) * (if Rlt_bool (v64 (u33 f)) 0 then -1 else 1)).
    { unfold sg. destruct odd, (Rlt_bool (v64 (u11 f)) 0), (Rlt_bool (v64 (u22 f)) 0), (Rlt_bool (v64 (u33 f)) 0); cbn [xorb]; lra. }
    assert (Eu : (if odd then -1 else 1) * (v64 (u11 f) * v64 (u22 f) * v64 (u33 f)) = (if sg then -1 else 1) * (Rabs (v64 (u11 f)) * Rabs (v64 (u22 f)) * Rabs (v64 (u33 f)))).
    { rewrite Eq, (abs_sign (v64 (u11 f))) at 1. rewrite (abs_sign (v64 (u22 f))) at 1. rewrite (abs_sign (v64 (u33 f))) at 1. ring. }
    replace ((if sg then -1 else 1) * v64 rr - (if odd then -1 else 1) * det) with
      ((if sg then -1 else 1) * (v64 rr - Rabs (v64 (u11 f)) * Rabs (v64 (u22 f)) * Rabs (v64 (u33 f))) + - ((if odd then -1 else 1) * (det - v64 (u11 f) * v64 (u22 f) * v64 (u33 f)))) by (rewrite !Rmult_minus_distr_l, <- Eu; ring).
    assert (Ss : Rabs (if sg then -1 else 1) = 1) by (destruct sg; [rewrite Rabs_left|rewrite Rabs_right]; lra).
    eapply Rle_trans; [apply Rabs_triang|]. rewrite Rabs_Ropp, (Rabs_mult (if sg then -1 else 1)), (Rabs_mult (if odd then -1 else 1)), Ss, So. lra.
Qed.
