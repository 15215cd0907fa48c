(** Numbers a + b tau with a small conjugate are 0 or not small. *)
From Coq Require Import Reals List ZArith Lia Lra.
From Verif Require Import Base.Res Model.Tau Model.Arr Spec.Value Spec.RVec Spec.Mean Spec.IcoSpec Spec.Sets Spec.Space Spec.Surface Spec.Grid Spec.SolidFloat Spec.EdgesFloat Proofs.Irrational Proofs.SolidLemmas.
Import ListNotations.
Local Open Scope R_scope.

Lemma TAU_sharp : 1.618 < TAU < 1.6181.
Proof. pose proof TAU_bounds. pose proof TAU_sq. nra. Qed.

(** x = a + b tau is at most M, its conjugate at most C. *)
Definition zt (M C x : R) : Prop :=
  exists a b : Z, x = IZR a + IZR b * TAU /\ Rabs x <= M /\ Rabs (IZR a + IZR b * (1 - TAU)) <= C.

Lemma zt_weaken M C M' C' x : zt M C x -> M <= M' -> C <= C' -> zt M' C' x.
Proof. intros (a & b & E & H1 & H2) ? ?. exists a, b. split; [exact E|]. lra. Qed.
Lemma zt_tau : zt 1.6181 0.6181 TAU.
Proof. pose proof TAU_sharp. exists 0%Z, 1%Z. split; [ring|]. split; unfold Rabs; destruct (Rcase_abs _); lra. Qed.
Lemma zt_add M C M' C' x y : zt M C x -> zt M' C' y -> zt (M + M') (C + C') (x + y).
Proof.
  intros (a & b & E & H1 & H2) (a' & b' & E' & H1' & H2'). exists (a + a')%Z, (b + b')%Z. rewrite !plus_IZR. split; [rewrite E, E'; ring|]. split.
  - pose proof (Rabs_triang x y). lra.
  - replace (IZR a + IZR a' + (IZR b + IZR b') * (1 - TAU)) with ((IZR a + IZR b * (1 - TAU)) + (IZR a' + IZR b' * (1 - TAU))) by ring.
    eapply Rle_trans; [apply Rabs_triang|]. lra.
Qed.
Lemma zt_opp M C x : zt M C x -> zt M C (- x).
Proof.
  intros (a & b & E & H1 & H2). exists (- a)%Z, (- b)%Z. rewrite !opp_IZR. split; [rewrite E; ring|]. rewrite Rabs_Ropp. split; [exact H1|].
  replace (- IZR a + - IZR b * (1 - TAU)) with (- (IZR a + IZR b * (1 - TAU))) by ring. rewrite Rabs_Ropp. exact H2.
Qed.
Lemma zt_sub M C M' C' x y : zt M C x -> zt M' C' y -> zt (M + M') (C + C') (x - y).
Proof. intros H H'. exact (zt_add _ _ _ _ _ _ H (zt_opp _ _ _ H')). Qed.
Lemma zt_mul M C M' C' x y : zt M C x -> zt M' C' y -> zt (M * M') (C * C') (x * y).
Proof.
  intros (a & b & E & H1 & H2) (a' & b' & E' & H1' & H2'). exists (a * a' + b * b')%Z, (a * b' + b * a' + b * b')%Z. rewrite !plus_IZR, !mult_IZR. split.
  - rewrite E, E'. transitivity (IZR a * IZR a' + IZR a * IZR b' * TAU + IZR b * IZR a' * TAU + IZR b * IZR b' * (TAU * TAU)); [ring|rewrite TAU_sq; ring].
  - split; [rewrite Rabs_mult; apply Rmult_le_compat; auto using Rabs_pos|].
    replace (IZR a * IZR a' + IZR b * IZR b' + (IZR a * IZR b' + IZR b * IZR a' + IZR b * IZR b') * (1 - TAU)) with ((IZR a + IZR b * (1 - TAU)) * (IZR a' + IZR b' * (1 - TAU))).
    + rewrite Rabs_mult. apply Rmult_le_compat; auto using Rabs_pos.
    + transitivity (IZR a * IZR a' + IZR a * IZR b' * (1 - TAU) + IZR b * IZR a' * (1 - TAU) + IZR b * IZR b' * (1 - 2 * TAU + TAU * TAU)); [ring|rewrite TAU_sq; ring].
Qed.
Lemma zt_floor M C x : zt M C x -> x <> 0 -> 1 <= Rabs x * C.
Proof.
  intros (a & b & E & _ & H2) Nx. set (y := IZR a + IZR b * (1 - TAU)) in *.
  assert (N : x * y = IZR (a * a + a * b - b * b)).
  { rewrite minus_IZR, plus_IZR, !mult_IZR, E. unfold y. transitivity (IZR a * IZR a + IZR a * IZR b + IZR b * IZR b * (TAU - TAU * TAU)); [ring|rewrite TAU_sq; ring]. }
  assert (Nz : (a * a + a * b - b * b <> 0)%Z).
  { intros Z. destruct (sq_prime 5 (2 * a + b) b prime_5) as [Ha Hb]; [nia|]. assert (a = 0)%Z by lia. subst. apply Nx. ring. }
  apply Rle_trans with (Rabs (x * y)); [|rewrite Rabs_mult; apply Rmult_le_compat_l; [apply Rabs_pos|exact H2]].
  rewrite N, <- abs_IZR. apply IZR_le. lia.
Qed.

Lemma zt_grid q x : on_grid q 6 x -> zt 15.7086 9.7086 (IZR q * val TAU x).
Proof.
  pose proof TAU_sharp as TS. intros (Pq & k & Ek & Ha & Hb). exists (k * ta x)%Z, (k * tb x)%Z.
  assert (Hc : IZR (tc x) <> 0) by (apply not_0_IZR; intros Z; rewrite Z in Ek; lia).
  assert (Ev : IZR q * val TAU x = IZR (k * ta x) + IZR (k * tb x) * TAU) by (unfold val; rewrite <- Ek, !mult_IZR; field; exact Hc).
  assert (A : -6 <= IZR (k * ta x) <= 6) by (split; apply IZR_le; lia). assert (B : -6 <= IZR (k * tb x) <= 6) by (split; apply IZR_le; lia).
  split; [exact Ev|]. rewrite Ev. split; unfold Rabs; destruct (Rcase_abs _); nra.
Qed.
Lemma zt_pp q v : gridv 6 q 6 v -> exists x y z, ppoint v = [x; y; z] /\ pp v = (x, y, z) /\ zt 82.3 31.5 (IZR q * x) /\ zt 82.3 31.5 (IZR q * y) /\ zt 82.3 31.5 (IZR q * z).
Proof.
  intros [L G]. destruct v as [|v0 [|v1 [|v2 [|v3 [|v4 [|v5 [|]]]]]]]; try discriminate L.
  assert (K : forall x, In x [v0; v1; v2; v3; v4; v5] -> zt 15.7086 9.7086 (IZR q * val TAU x)) by (intros x Hx; apply zt_grid; exact (proj1 (Forall_forall _ _) G x Hx)).
  assert (K0 := K v0 ltac:(cbn; tauto)). assert (K1 := K v1 ltac:(cbn; tauto)). assert (K2 := K v2 ltac:(cbn; tauto)). assert (K3 := K v3 ltac:(cbn; tauto)). assert (K4 := K v4 ltac:(cbn; tauto)). assert (K5 := K v5 ltac:(cbn; tauto)). clear K G L.
  assert (Row : forall a b c d, zt 15.7086 9.7086 (IZR q * a) -> zt 15.7086 9.7086 (IZR q * b) -> zt 15.7086 9.7086 (IZR q * c) -> zt 15.7086 9.7086 (IZR q * d) ->
    zt 82.3 31.5 (TAU * (IZR q * a) + TAU * (IZR q * b) - IZR q * c - IZR q * d) /\ zt 82.3 31.5 (TAU * (IZR q * a) - TAU * (IZR q * b) - IZR q * c - IZR q * d) /\ zt 82.3 31.5 (TAU * (IZR q * a) - TAU * (IZR q * b) + IZR q * c - IZR q * d)).
  { intros a b c d Ha Hb Hc Hd. assert (Ta := zt_mul _ _ _ _ _ _ zt_tau Ha). assert (Tb := zt_mul _ _ _ _ _ _ zt_tau Hb).
    split; [|split]; (eapply zt_weaken; [eapply zt_sub; [|exact Hd]; first [eapply zt_sub; [|exact Hc]|eapply zt_add; [|exact Hc]]; first [eapply zt_add; [exact Ta|exact Tb]|eapply zt_sub; [exact Ta|exact Tb]]|lra|lra]). }
  do 3 eexists. split; [reflexivity|]. split; [reflexivity|]. cbn [vals map dot zipWith Rsum]. split; [|split].
  - replace (IZR q * _) with (TAU * (IZR q * val TAU v0) - TAU * (IZR q * val TAU v4) - IZR q * val TAU v1 - IZR q * val TAU v2) by ring. exact (proj1 (proj2 (Row _ _ _ _ K0 K4 K1 K2))).
  - replace (IZR q * _) with (TAU * (IZR q * val TAU v3) + TAU * (IZR q * val TAU v5) - IZR q * val TAU v0 - IZR q * val TAU v4) by ring. exact (proj1 (Row _ _ _ _ K3 K5 K0 K4)).
  - replace (IZR q * _) with (TAU * (IZR q * val TAU v1) - TAU * (IZR q * val TAU v2) + IZR q * val TAU v3 - IZR q * val TAU v5) by ring. exact (proj2 (proj2 (Row _ _ _ _ K1 K2 K3 K5))).
Qed.

(** Centres. *)
Lemma told_num q n x y : 0 < q <= 5000 -> 2 <= n <= 3 -> zt (82.3 * n) (31.5 * n) (q * n * x) -> zt (82.3 * n) (31.5 * n) (q * n * y) -> x <> y ->
  2/100000000 + 2/100000 * Rabs x < Rabs (x - y) /\ 2/100000000 + 2/100000 * Rabs y < Rabs (x - y).
Proof.
  intros Hq Hn Zx Zy Nxy. assert (Z := zt_sub _ _ _ _ _ _ Zx Zy). assert (Qn : 0 < q * n) by nra.
  assert (F := zt_floor _ _ _ Z). rewrite <- Rmult_minus_distr_l in F. specialize (F (fun H => Nxy ltac:(destruct (Rmult_integral _ _ H); lra))).
  rewrite !Rabs_mult, (Rabs_pos_eq q), (Rabs_pos_eq n) in F by lra.
  destruct Zx as (_ & _ & _ & Bx & _). destruct Zy as (_ & _ & _ & By & _). rewrite !Rabs_mult, (Rabs_pos_eq q), (Rabs_pos_eq n) in Bx, By by lra.
  set (d := Rabs (x - y)) in *. assert (D0 : 0 <= d) by apply Rabs_pos.
  assert (Qd : 1 <= q * d * 567).
  { assert (F' : 1 <= q * d * (63 * (n * n))) by (eapply Rle_trans; [exact F|]; right; ring_simplify; lra). clear F. assert (n * n <= 9) by nra. assert (P : 0 <= q * d) by nra.
    eapply Rle_trans; [exact F'|]. apply Rmult_le_compat_l; [exact P|lra]. }
  assert (Kx : q * Rabs x <= 82.3) by nra. assert (Ky : q * Rabs y <= 82.3) by nra.
  clear - Qd Kx Ky Hq. split; apply Rmult_lt_reg_l with q; try lra.
Qed.
Lemma told_list q n (p p' : list R) : 0 < q <= 5000 -> 2 <= n <= 3 -> length p = 3%nat -> length p' = 3%nat ->
  Forall (fun x => zt (82.3 * n) (31.5 * n) (q * n * x)) p -> Forall (fun x => zt (82.3 * n) (31.5 * n) (q * n * x)) p' -> p = p' \/ told_apart p p'.
Proof.
  intros Hq Hn L L' F F'. destruct p as [|x [|y [|z [|]]]]; try discriminate L. destruct p' as [|x' [|y' [|z' [|]]]]; try discriminate L'.
  rewrite Forall_forall in F, F'.
  destruct (Req_dec x x') as [<-|N]; [|right; exists 0%nat, x, x'; split; [reflexivity|]; split; [reflexivity|]; apply (told_num q n); try assumption; [apply F|apply F']; cbn; tauto].
  destruct (Req_dec y y') as [<-|N]; [|right; exists 1%nat, y, y'; split; [reflexivity|]; split; [reflexivity|]; apply (told_num q n); try assumption; [apply F|apply F']; cbn; tauto].
  destruct (Req_dec z z') as [<-|N]; [|right; exists 2%nat, z, z'; split; [reflexivity|]; split; [reflexivity|]; apply (told_num q n); try assumption; [apply F|apply F']; cbn; tauto].
  left. reflexivity.
Qed.
Lemma centre_zt q f : (0 < q)%Z -> grids 6 q 6 f -> (length f = 2 \/ length f = 3)%nat ->
  length (pcentre f) = 3%nat /\ Forall (fun x => zt (82.3 * INR (length f)) (31.5 * INR (length f)) (IZR q * INR (length f) * x)) (pcentre f).
Proof.
  intros Pq G L. unfold grids in G. rewrite Forall_forall in G.
  destruct f as [|a [|b [|c [|]]]]; try (cbn in L; lia).
  - destruct (zt_pp q a (G a ltac:(cbn; tauto))) as (x & y & z & Ea & _ & X & Y & Z). destruct (zt_pp q b (G b ltac:(cbn; tauto))) as (x' & y' & z' & Eb & _ & X' & Y' & Z').
    unfold pcentre, mean. cbn [map length]. rewrite Ea, Eb. split; [reflexivity|]. cbn [vsum zerov repeat vadd zipWith vscale map].
    assert (K : forall s t, zt 82.3 31.5 (IZR q * s) -> zt 82.3 31.5 (IZR q * t) -> zt (82.3 * INR 2) (31.5 * INR 2) (IZR q * INR 2 * (/ INR 2 * (s + (t + 0))))).
    { intros s t Hs Ht. cbn [INR]. replace (IZR q * (1 + 1) * (/ (1 + 1) * (s + (t + 0)))) with (IZR q * s + IZR q * t) by field. eapply zt_weaken; [exact (zt_add _ _ _ _ _ _ Hs Ht)|lra|lra]. }
    repeat (apply Forall_cons; [apply K; assumption|]). apply Forall_nil.
  - destruct (zt_pp q a (G a ltac:(cbn; tauto))) as (x & y & z & Ea & _ & X & Y & Z). destruct (zt_pp q b (G b ltac:(cbn; tauto))) as (x' & y' & z' & Eb & _ & X' & Y' & Z'). destruct (zt_pp q c (G c ltac:(cbn; tauto))) as (x2 & y2 & z2 & Ec & _ & X2 & Y2 & Z2).
    unfold pcentre, mean. cbn [map length]. rewrite Ea, Eb, Ec. split; [reflexivity|]. cbn [vsum zerov repeat vadd zipWith vscale map].
    assert (K : forall s t u, zt 82.3 31.5 (IZR q * s) -> zt 82.3 31.5 (IZR q * t) -> zt 82.3 31.5 (IZR q * u) -> zt (82.3 * INR 3) (31.5 * INR 3) (IZR q * INR 3 * (/ INR 3 * (s + (t + (u + 0)))))).
    { intros s t u Hs Ht Hu. cbn [INR]. replace (IZR q * (1 + 1 + 1) * (/ (1 + 1 + 1) * (s + (t + (u + 0))))) with (IZR q * s + IZR q * t + IZR q * u) by (field; lra). eapply zt_weaken; [exact (zt_add _ _ _ _ _ _ (zt_add _ _ _ _ _ _ Hs Ht) Hu)|lra|lra]. }
    repeat (apply Forall_cons; [apply K; assumption|]). apply Forall_nil.
Qed.
Lemma centres_told q f g : (0 < q <= 5000)%Z -> grids 6 q 6 f -> grids 6 q 6 g -> (length f = 2 \/ length f = 3)%nat -> length g = length f ->
  pcentre f = pcentre g \/ told_apart (pcentre f) (pcentre g).
Proof.
  intros Hq Gf Gg L E. destruct (centre_zt q f ltac:(lia) Gf L) as [Lf Zf]. destruct (centre_zt q g ltac:(lia) Gg ltac:(rewrite E; exact L)) as [Lg Zg]. rewrite E in Zg.
  apply (told_list (IZR q) (INR (length f))); try assumption; [split; [apply IZR_lt; lia|apply IZR_le; lia]|]. destruct L as [-> | ->]; cbn [INR]; lra.
Qed.

(** Planes and samples. *)
Lemma scaled_floor (s C x : R) M : 0 < s -> 0 < C -> zt M C (s * x) -> x = 0 \/ 1 / (s * C) <= Rabs x.
Proof.
  intros Ps PC Z. destruct (Req_dec x 0) as [E|N]; [left; exact E|right]. assert (F := zt_floor _ _ _ Z ltac:(intros H; destruct (Rmult_integral _ _ H); lra)).
  rewrite Rabs_mult, (Rabs_pos_eq s) in F by lra. apply Rmult_le_reg_l with (s * C); [nra|]. replace (s * C * (1 / (s * C))) with 1 by (field; lra). nra.
Qed.
Lemma cross_zt q a b c : (0 < q)%Z -> gridv 6 q 6 a -> gridv 6 q 6 b -> gridv 6 q 6 c ->
  let '(x, y, z) := cross3 (sub3 (pp b) (pp a)) (sub3 (pp c) (pp a)) in
  (exists M, zt M 7938 (IZR q * IZR q * x)) /\ (exists M, zt M 7938 (IZR q * IZR q * y)) /\ (exists M, zt M 7938 (IZR q * IZR q * z)).
Proof.
  intros Pq Ga Gb Gc. destruct (zt_pp q a Ga) as (x & y & z & _ & -> & X & Y & Z). destruct (zt_pp q b Gb) as (x1 & y1 & z1 & _ & -> & X1 & Y1 & Z1). destruct (zt_pp q c Gc) as (x2 & y2 & z2 & _ & -> & X2 & Y2 & Z2).
  cbn [sub3 cross3].
  assert (K : forall a b c d a' b' c' d', zt 82.3 31.5 (IZR q * a) -> zt 82.3 31.5 (IZR q * b) -> zt 82.3 31.5 (IZR q * c) -> zt 82.3 31.5 (IZR q * d) -> zt 82.3 31.5 (IZR q * a') -> zt 82.3 31.5 (IZR q * b') -> zt 82.3 31.5 (IZR q * c') -> zt 82.3 31.5 (IZR q * d') ->
    exists M, zt M 7938 (IZR q * IZR q * ((a - b) * (c - d) - (a' - b') * (c' - d')))).
  { intros. eexists. replace (IZR q * IZR q * _) with ((IZR q * a0 - IZR q * b0) * (IZR q * c0 - IZR q * d) - (IZR q * a' - IZR q * b') * (IZR q * c' - IZR q * d')) by ring.
    eapply zt_weaken; [eapply zt_sub; eapply zt_mul; eapply zt_sub; eassumption|apply Rle_refl|lra]. }
  split; [|split]; apply K; assumption.
Qed.
Lemma grid_wide q a b c : (0 < q <= 7)%Z -> gridv 6 q 6 a -> gridv 6 q 6 b -> gridv 6 q 6 c -> cross3 (sub3 (pp b) (pp a)) (sub3 (pp c) (pp a)) <> o3 -> wide (pp a) (pp b) (pp c).
Proof.
  intros Hq Ga Gb Gc N. pose proof (cross_zt q a b c ltac:(lia) Ga Gb Gc) as K. unfold wide. destruct (cross3 _ _) as [[x y] z]. destruct K as ((M & X) & (M' & Y) & (M'' & Z)).
  assert (Q : 0 < IZR q <= 7) by (split; [apply IZR_lt; lia|apply IZR_le; lia]). assert (Q2 : 0 < IZR q * IZR q <= 49) by nra.
  assert (H : 2/1000000 <= 1 / (IZR q * IZR q * 7938)).
  { apply Rmult_le_reg_l with (IZR q * IZR q * 7938); [lra|]. replace (IZR q * IZR q * 7938 * (1 / (IZR q * IZR q * 7938))) with 1 by (field; lra). lra. }
  destruct (scaled_floor _ 7938 _ _ (proj1 Q2) ltac:(lra) X) as [->|]; [|left; lra]. destruct (scaled_floor _ 7938 _ _ (proj1 Q2) ltac:(lra) Y) as [->|]; [|right; left; lra].
  destruct (scaled_floor _ 7938 _ _ (proj1 Q2) ltac:(lra) Z) as [->|]; [|right; right; lra]. destruct N. reflexivity.
Qed.
Lemma grid_planes q vs : (0 < q <= 7)%Z -> grids 6 q 6 vs -> very_clear_planes vs.
Proof.
  intros Hq G a b c d Ia Ib Ic Id. unfold grids in G. rewrite Forall_forall in G. unfold flat4, triple3.
  pose proof (cross_zt q a b c ltac:(lia) (G a Ia) (G b Ib) (G c Ic)) as K. destruct (cross3 _ _) as [[x y] z]. destruct K as ((M & X) & (M' & Y) & (M'' & Z)).
  destruct (zt_pp q a (G a Ia)) as (xa & ya & za & _ & -> & XA & YA & ZA). destruct (zt_pp q d (G d Id)) as (xd & yd & zd & _ & -> & XD & YD & ZD). cbn [sub3 dot3].
  assert (Q : 0 < IZR q <= 7) by (split; [apply IZR_lt; lia|apply IZR_le; lia]). assert (Q2 : 0 < IZR q * IZR q <= 49) by nra. assert (Q3 : 0 < IZR q * IZR q * IZR q <= 343) by (split; [apply Rmult_lt_0_compat; lra|replace 343 with (49 * 7) by ring; apply Rmult_le_compat; lra]).
  assert (T : exists m, zt m 1500282 (IZR q * IZR q * IZR q * (x * (xd - xa) + y * (yd - ya) + z * (zd - za)))).
  { eexists. replace (IZR q * IZR q * IZR q * _) with (IZR q * IZR q * x * (IZR q * xd - IZR q * xa) + IZR q * IZR q * y * (IZR q * yd - IZR q * ya) + IZR q * IZR q * z * (IZR q * zd - IZR q * za)) by ring.
    eapply zt_weaken; [eapply zt_add; [eapply zt_add|]; (eapply zt_mul; [eassumption|eapply zt_sub; eassumption])|apply Rle_refl|lra]. }
  destruct T as (m & T). destruct (scaled_floor _ 1500282 _ _ (proj1 Q3) ltac:(lra) T) as [E|F]; [left; exact E|right]. eapply Rle_trans; [|exact F].
  apply Rmult_le_reg_l with (IZR q * IZR q * IZR q * 1500282); [lra|]. replace (IZR q * IZR q * IZR q * 1500282 * (1 / (IZR q * IZR q * IZR q * 1500282))) with 1 by (field; lra). lra.
Qed.
