(** Numbers a + b sqrt 3 with a small conjugate are 0 or not small (w = SIN = sqrt 3 / 2). *)
From Coq Require Import Reals List ZArith Znumtheory Lia Lra.
From Verif Require Import Base.Res Model.Tau Model.Arr Spec.Value Spec.RVec Spec.Mean Spec.DodeSpec Spec.Sets Spec.Space Spec.Plane Spec.Surface Spec.Outline Spec.Grid Spec.SolidFloat Spec.Samples Proofs.Irrational.
Import ListNotations.
Local Open Scope R_scope.

Lemma SIN_sharp : 0.866 < SIN < 0.8661.
Proof. pose proof SIN_bounds. pose proof SIN_sq. nra. Qed.

(** x = a + b sqrt 3 is at most M, its conjugate at most C. *)
Definition zs (M C x : R) : Prop :=
  exists a b : Z, x = IZR a + IZR b * (2 * SIN) /\ Rabs x <= M /\ Rabs (IZR a - IZR b * (2 * SIN)) <= C.

Lemma zs_weaken M C M' C' x : zs M C x -> M <= M' -> C <= C' -> zs M' C' x.
Proof. intros (a & b & E & H1 & H2) ? ?. exists a, b. split; [exact E|]. lra. Qed.
Lemma zs_root : zs 1.7322 1.7322 (2 * SIN).
Proof. pose proof SIN_sharp. exists 0%Z, 1%Z. split; [ring|]. split; unfold Rabs; destruct (Rcase_abs _); lra. Qed.
Lemma zs_two : zs 2 2 2.
Proof. exists 2%Z, 0%Z. split; [ring|]. split; unfold Rabs; destruct (Rcase_abs _); lra. Qed.
Lemma zs_add M C M' C' x y : zs M C x -> zs M' C' y -> zs (M + M') (C + C') (x + y).
Proof.
  intros (a & b & E & H1 & H2) (a' & b' & E' & H1' & H2'). exists (a + a')%Z, (b + b')%Z. rewrite !plus_IZR. split; [rewrite E, E'; ring|]. split.
  - pose proof (Rabs_triang x y). lra.
  - replace (IZR a + IZR a' - (IZR b + IZR b') * (2 * SIN)) with ((IZR a - IZR b * (2 * SIN)) + (IZR a' - IZR b' * (2 * SIN))) by ring.
    eapply Rle_trans; [apply Rabs_triang|]. lra.
Qed.
Lemma zs_opp M C x : zs M C x -> zs M C (- x).
Proof.
  intros (a & b & E & H1 & H2). exists (- a)%Z, (- b)%Z. rewrite !opp_IZR. split; [rewrite E; ring|]. rewrite Rabs_Ropp. split; [exact H1|].
  replace (- IZR a - - IZR b * (2 * SIN)) with (- (IZR a - IZR b * (2 * SIN))) by ring. rewrite Rabs_Ropp. exact H2.
Qed.
Lemma zs_sub M C M' C' x y : zs M C x -> zs M' C' y -> zs (M + M') (C + C') (x - y).
Proof. intros H H'. exact (zs_add _ _ _ _ _ _ H (zs_opp _ _ _ H')). Qed.
Lemma zs_mul M C M' C' x y : zs M C x -> zs M' C' y -> zs (M * M') (C * C') (x * y).
Proof.
  intros (a & b & E & H1 & H2) (a' & b' & E' & H1' & H2'). exists (a * a' + 3 * (b * b'))%Z, (a * b' + b * a')%Z. rewrite !plus_IZR, !mult_IZR. split.
  - rewrite E, E'. transitivity (IZR a * IZR a' + (IZR a * IZR b' + IZR b * IZR a') * (2 * SIN) + 4 * (IZR b * IZR b') * (SIN * SIN)); [ring|rewrite SIN_sq; field].
  - split; [rewrite Rabs_mult; apply Rmult_le_compat; auto using Rabs_pos|].
    replace (IZR a * IZR a' + 3 * (IZR b * IZR b') - (IZR a * IZR b' + IZR b * IZR a') * (2 * SIN)) with ((IZR a - IZR b * (2 * SIN)) * (IZR a' - IZR b' * (2 * SIN))).
    + rewrite Rabs_mult. apply Rmult_le_compat; auto using Rabs_pos.
    + transitivity (IZR a * IZR a' - (IZR a * IZR b' + IZR b * IZR a') * (2 * SIN) + 4 * (IZR b * IZR b') * (SIN * SIN)); [ring|rewrite SIN_sq; field].
Qed.
Lemma zs_floor M C x : zs M C x -> x <> 0 -> 1 <= Rabs x * C.
Proof.
  intros (a & b & E & _ & H2) Nx. set (y := IZR a - IZR b * (2 * SIN)) in *.
  assert (N : x * y = IZR (a * a - 3 * (b * b))).
  { rewrite minus_IZR, !mult_IZR, E. unfold y. transitivity (IZR a * IZR a - 4 * (IZR b * IZR b) * (SIN * SIN)); [ring|rewrite SIN_sq; field]. }
  assert (Nz : (a * a - 3 * (b * b) <> 0)%Z).
  { intros Z. destruct (sq_prime 3 a b prime_3) as [-> ->]; [lia|]. apply Nx. rewrite E. ring. }
  apply Rle_trans with (Rabs (x * y)); [|rewrite Rabs_mult; apply Rmult_le_compat_l; [apply Rabs_pos|exact H2]].
  rewrite N, <- abs_IZR. apply IZR_le. lia.
Qed.

Lemma zs_grid q B x : on_grid q B x -> zs (3.7322 * IZR B) (3.7322 * IZR B) (2 * IZR q * val SIN x).
Proof.
  pose proof SIN_sharp as TS. intros (Pq & k & Ek & Ha & Hb). exists (2 * (k * ta x))%Z, (k * tb x)%Z.
  assert (Hc : IZR (tc x) <> 0) by (apply not_0_IZR; intros Z; rewrite Z in Ek; lia).
  assert (Ev : 2 * IZR q * val SIN x = IZR (2 * (k * ta x)) + IZR (k * tb x) * (2 * SIN)) by (unfold val; rewrite <- Ek, !mult_IZR; field; exact Hc).
  assert (A : - IZR B <= IZR (k * ta x) <= IZR B) by (rewrite <- opp_IZR; split; apply IZR_le; lia). assert (Hb' : - IZR B <= IZR (k * tb x) <= IZR B) by (rewrite <- opp_IZR; split; apply IZR_le; lia).
  split; [exact Ev|]. rewrite Ev. rewrite (mult_IZR 2). split; unfold Rabs; destruct (Rcase_abs _); nra.
Qed.
Lemma zs_dp q B v : (0 <= B)%Z -> gridv 6 q B v -> exists x y z, dppoint v = [x; y; z] /\ dp v = (x, y, z) /\
  zs (17.67 * IZR B) (17.67 * IZR B) (4 * IZR q * x) /\ zs (17.67 * IZR B) (17.67 * IZR B) (4 * IZR q * y) /\ zs (17.67 * IZR B) (17.67 * IZR B) (4 * IZR q * z).
Proof.
  intros PB [L G]. apply IZR_le in PB. destruct v as [|v0 [|v1 [|v2 [|v3 [|v4 [|v5 [|]]]]]]]; try discriminate L.
  assert (K : forall x, In x [v0; v1; v2; v3; v4; v5] -> zs (3.7322 * IZR B) (3.7322 * IZR B) (2 * IZR q * val SIN x)) by (intros x Hx; apply zs_grid; exact (proj1 (Forall_forall _ _) G x Hx)).
  assert (K0 := K v0 ltac:(cbn; tauto)). assert (K1 := K v1 ltac:(cbn; tauto)). assert (K2 := K v2 ltac:(cbn; tauto)). assert (K3 := K v3 ltac:(cbn; tauto)). assert (K5 := K v5 ltac:(cbn; tauto)). clear K G L.
  do 3 eexists. split; [reflexivity|]. split; [reflexivity|]. cbn [vals map dot zipWith Rsum]. split; [|split].
  - replace (4 * IZR q * _) with (2 * (2 * IZR q * val SIN v1) - 2 * SIN * (2 * IZR q * val SIN v0) - 2 * IZR q * val SIN v3) by field.
    eapply zs_weaken; [eapply zs_sub; [eapply zs_sub; [exact (zs_mul _ _ _ _ _ _ zs_two K1)|exact (zs_mul _ _ _ _ _ _ zs_root K0)]|exact K3]|lra|lra].
  - replace (4 * IZR q * _) with (2 * (2 * IZR q * val SIN v2) - 2 * SIN * (2 * IZR q * val SIN v3) - 2 * IZR q * val SIN v0) by field.
    eapply zs_weaken; [eapply zs_sub; [eapply zs_sub; [exact (zs_mul _ _ _ _ _ _ zs_two K2)|exact (zs_mul _ _ _ _ _ _ zs_root K3)]|exact K0]|lra|lra].
  - replace (4 * IZR q * _) with (2 * (2 * IZR q * val SIN v5)) by field.
    eapply zs_weaken; [exact (zs_mul _ _ _ _ _ _ zs_two K5)|lra|lra].
Qed.

(** Midpoints. *)
Lemma dtold_num q x y : 0 < q <= 4000 -> zs 141.36 141.36 (8 * q * x) -> zs 141.36 141.36 (8 * q * y) -> x <> y ->
  2/100000000 + 2/100000 * Rabs x < Rabs (x - y) /\ 2/100000000 + 2/100000 * Rabs y < Rabs (x - y).
Proof.
  intros Hq Zx Zy Nxy. assert (Z := zs_sub _ _ _ _ _ _ Zx Zy).
  assert (F := zs_floor _ _ _ Z). rewrite <- Rmult_minus_distr_l in F. specialize (F (fun H => Nxy ltac:(destruct (Rmult_integral _ _ H); lra))).
  rewrite !Rabs_mult, (Rabs_pos_eq q), (Rabs_pos_eq 8) in F by lra.
  destruct Zx as (_ & _ & _ & Bx & _). destruct Zy as (_ & _ & _ & By & _). rewrite !Rabs_mult, (Rabs_pos_eq q), (Rabs_pos_eq 8) in Bx, By by lra.
  set (d := Rabs (x - y)) in *. assert (Qd : 1 <= q * d * 2261.76) by lra.
  assert (Kx : q * Rabs x <= 17.67) by lra. assert (Ky : q * Rabs y <= 17.67) by lra.
  clear - Qd Kx Ky Hq. split; apply Rmult_lt_reg_l with q; try lra.
Qed.
Lemma mid_zs q f : (0 < q)%Z -> grids 6 q 4 f -> length f = 2%nat ->
  exists x y z, dpcentre f = [x; y; z] /\ zs 141.36 141.36 (8 * IZR q * x) /\ zs 141.36 141.36 (8 * IZR q * y) /\ zs 141.36 141.36 (8 * IZR q * z).
Proof.
  intros Pq G L. unfold grids in G. rewrite Forall_forall in G. destruct f as [|a [|b [|]]]; try discriminate L.
  destruct (zs_dp q 4 a ltac:(lia) (G a ltac:(cbn; tauto))) as (x & y & z & Ea & _ & X & Y & Z). destruct (zs_dp q 4 b ltac:(lia) (G b ltac:(cbn; tauto))) as (x' & y' & z' & Eb & _ & X' & Y' & Z').
  unfold dpcentre, mean. cbn [map length]. rewrite Ea, Eb. do 3 eexists. split; [reflexivity|].
  assert (K : forall s t, zs (17.67 * 4) (17.67 * 4) (4 * IZR q * s) -> zs (17.67 * 4) (17.67 * 4) (4 * IZR q * t) -> zs 141.36 141.36 (8 * IZR q * (/ INR 2 * (s + (t + 0))))).
  { intros s t Hs Ht. cbn [INR]. replace (8 * IZR q * (/ (1 + 1) * (s + (t + 0)))) with (4 * IZR q * s + 4 * IZR q * t) by field. eapply zs_weaken; [exact (zs_add _ _ _ _ _ _ Hs Ht)|lra|lra]. }
  split; [|split]; apply K; assumption.
Qed.
Lemma mids_told q e g : (0 < q <= 4000)%Z -> grids 6 q 4 e -> grids 6 q 4 g -> length e = 2%nat -> length g = 2%nat -> dpcentre e = dpcentre g \/ told_apart (dpcentre e) (dpcentre g).
Proof.
  intros Hq Ge Gg Le Lg. destruct (mid_zs q e ltac:(lia) Ge Le) as (x & y & z & -> & X & Y & Z). destruct (mid_zs q g ltac:(lia) Gg Lg) as (x' & y' & z' & -> & X' & Y' & Z').
  assert (Q : 0 < IZR q <= 4000) by (split; [apply IZR_lt; lia|apply IZR_le; lia]).
  destruct (Req_dec x x') as [<-|N]; [|right; exists 0%nat, x, x'; split; [reflexivity|]; split; [reflexivity|]; exact (dtold_num _ _ _ Q X X' N)].
  destruct (Req_dec y y') as [<-|N]; [|right; exists 1%nat, y, y'; split; [reflexivity|]; split; [reflexivity|]; exact (dtold_num _ _ _ Q Y Y' N)].
  destruct (Req_dec z z') as [<-|N]; [|right; exists 2%nat, z, z'; split; [reflexivity|]; split; [reflexivity|]; exact (dtold_num _ _ _ Q Z Z' N)].
  left. reflexivity.
Qed.

(** Samples. *)
Lemma det_big q B a b c : (0 <= B)%Z -> (0 < q)%Z -> (q * B <= 3)%Z -> gridv 6 q B a -> gridv 6 q B b -> gridv 6 q B c ->
  det2 (sub3 (dp b) (dp a)) (sub3 (dp c) (dp a)) <> 0 -> 2/1000000 <= Rabs (det2 (sub3 (dp b) (dp a)) (sub3 (dp c) (dp a))).
Proof.
  intros PB Pq Hm Ga Gb Gc. destruct (zs_dp q B a PB Ga) as (x & y & z & _ & -> & X & Y & _). destruct (zs_dp q B b PB Gb) as (x1 & y1 & z1 & _ & -> & X1 & Y1 & _). destruct (zs_dp q B c PB Gc) as (x2 & y2 & z2 & _ & -> & X2 & Y2 & _).
  cbn [sub3 det2]. set (d := (x1 - x) * (y2 - y) - (y1 - y) * (x2 - x)). intros N.
  assert (Q : 1 <= IZR q) by (apply IZR_le; lia). assert (B0 : 0 <= IZR B) by (apply IZR_le; lia). assert (Qm : IZR q * IZR B <= 3) by (rewrite <- mult_IZR; apply IZR_le; exact Hm).
  assert (Z : zs (2498 * (IZR B * IZR B)) (2498 * (IZR B * IZR B)) (16 * (IZR q * IZR q) * d)).
  { unfold d. replace (16 * (IZR q * IZR q) * _) with ((4 * IZR q * x1 - 4 * IZR q * x) * (4 * IZR q * y2 - 4 * IZR q * y) - (4 * IZR q * y1 - 4 * IZR q * y) * (4 * IZR q * x2 - 4 * IZR q * x)) by ring.
    assert (0 <= IZR B * IZR B) by nra. eapply zs_weaken; [eapply zs_sub; (eapply zs_mul; eapply zs_sub; eassumption)|lra|lra]. }
  assert (Qs : 0 < IZR q * IZR q) by nra.
  assert (F := zs_floor _ _ _ Z ltac:(intros H; destruct (Rmult_integral _ _ H); [lra|contradiction])).
  rewrite !Rabs_mult, (Rabs_pos_eq 16), (Rabs_pos_eq (IZR q)) in F by lra. pose proof (Rabs_pos d) as D0.
  assert (S9 : (IZR q * IZR B) * (IZR q * IZR B) <= 9) by (replace 9 with (3 * 3) by ring; apply Rmult_le_compat; nra).
  assert (F' : 1 <= 39968 * ((IZR q * IZR B) * (IZR q * IZR B)) * Rabs d) by (eapply Rle_trans; [exact F|]; right; ring).
  assert (39968 * ((IZR q * IZR B) * (IZR q * IZR B)) * Rabs d <= 39968 * 9 * Rabs d) by (apply Rmult_le_compat_r; [exact D0|lra]). lra.
Qed.
