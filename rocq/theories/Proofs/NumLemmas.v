(** The numerical functions in exact real arithmetic. *)
From Coq Require Import Reals List ZArith Lia Lra Psatz Bool Arith.
From Verif Require Import Base.Res Model.Tau Model.Arr Model.Num Model.IcoNumeric Spec.Value Spec.RVec Spec.Shape
  Spec.IcoSpec Spec.Space Proofs.ResLemmas Proofs.RVecLemmas Proofs.Irrational.
Import ListNotations.
Local Open Scope R_scope.

Lemma Rltb_true x y : Rltb x y = true <-> x < y.
Proof. unfold Rltb. destruct (Rlt_dec x y); split; intros; auto; try discriminate; contradiction. Qed.
Lemma Rltb_false x y : Rltb x y = false <-> y <= x.
Proof. unfold Rltb. destruct (Rlt_dec x y); split; intros; auto; try discriminate; lra. Qed.
Lemma Rleb_true x y : Rleb x y = true <-> x <= y.
Proof. unfold Rleb. destruct (Rle_dec x y); split; intros; auto; try discriminate; contradiction. Qed.
Lemma Rleb_false x y : Rleb x y = false <-> y < x.
Proof. unfold Rleb. destruct (Rle_dec x y); split; intros; auto; try discriminate; lra. Qed.

Lemma EPS_R : EPS Rnum = 1 / 1000000. Proof. reflexivity. Qed.
Lemma f1e10_R : f1e10 Rnum = 1 / 10000000000. Proof. reflexivity. Qed.
Lemma ftau_R : ftau Rnum = TAU. Proof. reflexivity. Qed.

Lemma numeric_value_R t : numeric_value Rnum t = val TAU t.
Proof. destruct t as [a b c]. unfold numeric_value, val. cbn. unfold ftau. cbn. reflexivity. Qed.
Lemma numerical_vector_R v : numerical_vector Rnum v = vals TAU v.
Proof. unfold numerical_vector, vals. apply map_ext. apply numeric_value_R. Qed.

Lemma internal_R v : length v = 6%nat -> internal Rnum v = Ok (pp v).
Proof.
  intros L. unfold internal. rewrite numerical_vector_R. unfold pp.
  destruct v as [|v0 [|v1 [|v2 [|v3 [|v4 [|v5 [|]]]]]]]; try discriminate L. clear L.
  unfold vals; cbn [map]. generalize (val TAU v0) (val TAU v1) (val TAU v2) (val TAU v3) (val TAU v4) (val TAU v5).
  intros x0 x1 x2 x3 x4 x5. unfold projection3_numerical. cbn [get nth_error bind].
  rewrite ftau_R. cbn. unfold dot; cbn. apply (f_equal (@Ok R3)). apply f_equal2; [apply f_equal2|]; ring.
Qed.
Lemma internals_R vs : Forall (fun v => length v = 6%nat) vs -> internals Rnum vs = Ok (map pp vs).
Proof.
  intros H. unfold internals. induction H as [|v vs Hv _ IH]; cbn [mapM map]; [reflexivity|].
  rewrite internal_R by exact Hv. cbn [bind]. rewrite IH. reflexivity.
Qed.

(** The model's vector operations in exact arithmetic are the usual ones. *)
Lemma psub_R (p q : R3) : psub Rnum p q = sub3 p q. Proof. destruct p as [[? ?] ?], q as [[? ?] ?]. reflexivity. Qed.
Lemma pcross_R (p q : R3) : pcross Rnum p q = cross3 p q. Proof. destruct p as [[? ?] ?], q as [[? ?] ?]. reflexivity. Qed.
Lemma pdot_R (p q : R3) : pdot Rnum p q = dot3 p q. Proof. destruct p as [[? ?] ?], q as [[? ?] ?]. reflexivity. Qed.
Lemma pnorm_R (p : R3) : pnorm Rnum p = norm3 p. Proof. destruct p as [[? ?] ?]. reflexivity. Qed.

Ltac toR := change (psub Rnum) with sub3; change (pcross Rnum) with cross3; change (pdot Rnum) with dot3;
  change (pnorm Rnum) with norm3; change (flt Rnum) with Rltb; change (fle Rnum) with Rleb; change (EPS Rnum) with (1/1000000);
  change (f1e10 Rnum) with (1/10000000000); cbn [fabs fsub fadd fdiv fZ fmul fneg fsqrt Rnum].
Ltac p3 p := destruct p as [[? ?] ?].
Ltac u3 := unfold triple3, dot3, cross3, sub3, add3, scale3 in *; cbn [fst snd] in *.

Lemma pdet_R (u v w : R3) : pdet Rnum u v w = triple3 u v w.
Proof.
  destruct u as [[u0 u1] u2], v as [[v0 v1] v2], w as [[w0 w1] w2].
  change (@eq R (u0 * (v1 * w2 - v2 * w1) + u1 * (v2 * w0 - v0 * w2) + u2 * (v0 * w1 - v1 * w0)) (triple3 (u0, u1, u2) (v0, v1, v2) (w0, w1, w2))).
  u3. ring.
Qed.
Lemma vol4_R a b c d : vol4 Rnum a b c d = vol3 a b c d.
Proof.
  unfold vol4, vol3. rewrite !psub_R, pdet_R. reflexivity.
Qed.

(** Barycentric coordinates. *)
Lemma bary4 ws a b c d p : bary ws [a;b;c;d] p ->
  exists w0 w1 w2 w3, ws = [w0;w1;w2;w3] /\ w0 = 1 - w1 - w2 - w3.
Proof.
  intros (L & S & _). destruct ws as [|w0 [|w1 [|w2 [|w3 [|]]]]]; try discriminate L.
  exists w0, w1, w2, w3. split; [reflexivity|]. cbn in S. lra.
Qed.

Lemma bary_vols ws a b c d p : bary ws [a;b;c;d] p ->
  vol3 p b c d = Rabs (nth 0 ws 0) * vol3 a b c d /\ vol3 a p c d = Rabs (nth 1 ws 0) * vol3 a b c d /\
  vol3 a b p d = Rabs (nth 2 ws 0) * vol3 a b c d /\ vol3 a b c p = Rabs (nth 3 ws 0) * vol3 a b c d.
Proof.
  intros H. destruct (bary4 _ _ _ _ _ _ H) as (w0 & w1 & w2 & w3 & -> & E). destruct H as (_ & _ & ->). cbn [nth].
  assert (K : forall x w y, x = w * y -> Rabs x / 6 = Rabs w * (Rabs y / 6)).
  { intros x w y ->. rewrite Rabs_mult. field. }
  unfold vol3. repeat split; apply K; p3 a; p3 b; p3 c; p3 d; subst w0; cbn; unfold o3; cbn; ring.
Qed.

Lemma bary_exists a b c d p : ~ flat4 a b c d -> exists ws, bary ws [a;b;c;d] p.
Proof.
  unfold flat4. intros H. set (D := triple3 (sub3 b a) (sub3 c a) (sub3 d a)) in *.
  set (w1 := triple3 (sub3 p a) (sub3 c a) (sub3 d a) / D).
  set (w2 := triple3 (sub3 b a) (sub3 p a) (sub3 d a) / D).
  set (w3 := triple3 (sub3 b a) (sub3 c a) (sub3 p a) / D).
  exists [1 - w1 - w2 - w3; w1; w2; w3]. split; [reflexivity|]. split; [cbn; ring|].
  subst w1 w2 w3 D. p3 a; p3 b; p3 c; p3 d; p3 p. cbn in *. unfold o3.
  apply f_equal2; [apply f_equal2|]; field; exact H.
Qed.

Lemma bary_dets w0 w1 w2 w3 a b c d p : bary [w0;w1;w2;w3] [a;b;c;d] p ->
  let D := triple3 (sub3 b a) (sub3 c a) (sub3 d a) in
  w1 * D = triple3 (sub3 p a) (sub3 c a) (sub3 d a) /\ w2 * D = triple3 (sub3 b a) (sub3 p a) (sub3 d a) /\
  w3 * D = triple3 (sub3 b a) (sub3 c a) (sub3 p a).
Proof.
  intros (_ & S & ->). cbn in S. assert (E : w0 = 1 - w1 - w2 - w3) by lra. subst w0.
  p3 a; p3 b; p3 c; p3 d. cbn. unfold o3. repeat split; ring.
Qed.

Lemma bary_unique a b c d p ws ws' : ~ flat4 a b c d -> bary ws [a;b;c;d] p -> bary ws' [a;b;c;d] p -> ws = ws'.
Proof.
  unfold flat4. intros H B B'.
  destruct (bary4 _ _ _ _ _ _ B) as (w0 & w1 & w2 & w3 & -> & E). destruct (bary4 _ _ _ _ _ _ B') as (v0 & v1 & v2 & v3 & -> & E').
  apply bary_dets in B as (B1 & B2 & B3). apply bary_dets in B' as (C1 & C2 & C3).
  assert (w1 = v1) by (apply (Rmult_eq_reg_r (triple3 (sub3 b a) (sub3 c a) (sub3 d a))); [congruence|exact H]).
  assert (w2 = v2) by (apply (Rmult_eq_reg_r (triple3 (sub3 b a) (sub3 c a) (sub3 d a))); [congruence|exact H]).
  assert (w3 = v3) by (apply (Rmult_eq_reg_r (triple3 (sub3 b a) (sub3 c a) (sub3 d a))); [congruence|exact H]).
  congruence.
Qed.

(** Point in tetrahedron. *)
Lemma Rabs_sum4 w0 w1 w2 w3 : w0 + (w1 + (w2 + (w3 + 0))) = 1 -> 1 <= Rabs w0 + Rabs w1 + Rabs w2 + Rabs w3.
Proof. intros H. pose proof (Rle_abs w0). pose proof (Rle_abs w1). pose proof (Rle_abs w2). pose proof (Rle_abs w3). lra. Qed.

Lemma in_tet_R p a b c d ws : ~ flat4 a b c d -> bary ws [a;b;c;d] p ->
  (in_tet Rnum p a b c d = true <-> Rsum (map Rabs ws) < 1 + 1 / 1000000).
Proof.
  intros Hf B. unfold in_tet. rewrite !vol4_R. destruct (bary_vols _ _ _ _ _ _ B) as (V0 & V1 & V2 & V3).
  rewrite V0, V1, V2, V3. destruct (bary4 _ _ _ _ _ _ B) as (w0 & w1 & w2 & w3 & -> & _). cbn [nth map Rsum].
  destruct B as (_ & S & _). cbn [Rsum] in S. pose proof (Rabs_sum4 _ _ _ _ S) as S1.
  assert (Vp : 0 < vol3 a b c d).
  { unfold vol3. unfold flat4 in Hf. pose proof (Rabs_pos_lt _ Hf). lra. }
  rewrite Rltb_true || (change (flt Rnum) with Rltb; rewrite Rltb_true). rewrite EPS_R. cbn [fabs fsub fmul Rnum].
  set (V := vol3 a b c d) in *. set (s := Rabs w0 + (Rabs w1 + (Rabs w2 + (Rabs w3 + 0)))) in *.
  replace (V - Rabs w0 * V - Rabs w1 * V - Rabs w2 * V - Rabs w3 * V) with (- (V * (s - 1))) by (unfold s; ring).
  rewrite Rabs_Ropp, Rabs_mult, (Rabs_pos_eq V) by lra. rewrite (Rabs_pos_eq (s - 1)) by (unfold s; lra).
  split; intros H.
  - apply Rmult_lt_reg_l with V; [exact Vp|]. nra.
  - nra.
Qed.

Lemma in_tet_flat p a b c d : flat4 a b c d -> in_tet Rnum p a b c d = false.
Proof.
  intros Hf. unfold in_tet. rewrite !vol4_R. assert (E : vol3 a b c d = 0).
  { unfold vol3. rewrite Hf, Rabs_R0. field. }
  rewrite E. change (flt Rnum) with Rltb. apply Rltb_false. cbn [fmul Rnum fabs]. rewrite Rmult_0_r. apply Rabs_pos.
Qed.

Lemma in_tet_spec p a b c d : in_tet Rnum p a b c d = true <->
  ~ flat4 a b c d /\ exists ws, bary ws [a;b;c;d] p /\ Rsum (map Rabs ws) < 1 + 1 / 1000000.
Proof.
  destruct (Req_dec (triple3 (sub3 b a) (sub3 c a) (sub3 d a)) 0) as [Hf|Hf].
  - rewrite (in_tet_flat p a b c d Hf). split; [discriminate|]. intros [H _]. contradiction.
  - destruct (bary_exists a b c d p Hf) as (ws & B). rewrite (in_tet_R p a b c d ws Hf B). split.
    + intros H. split; [exact Hf|eauto].
    + intros [_ (ws' & B' & H)]. rewrite (bary_unique _ _ _ _ _ _ _ Hf B B'). exact H.
Qed.

(** Segment and triangle. *)
Lemma seg_tri_R a b c d e : seg_tri Rnum a b c d e = true <->
  1 / 1000000 <= Rabs (triple3 (sub3 b a) (sub3 d c) (sub3 e c)) /\
  exists u v t, add3 a (scale3 t (sub3 b a)) = add3 c (add3 (scale3 u (sub3 d c)) (scale3 v (sub3 e c))) /\
    - (1/1000000) <= u <= 1 + 1/1000000 /\ - (1/1000000) <= v /\ u + v <= 1 + 1/1000000 /\
    - (1/1000000) <= t <= 1 + 1/1000000.
Proof.
  unfold seg_tri. cbv zeta. toR.
  set (D := dot3 (cross3 (sub3 b a) (sub3 e c)) (sub3 d c)).
  assert (ED : triple3 (sub3 b a) (sub3 d c) (sub3 e c) = - D).
  { unfold D. p3 a; p3 b; p3 c; p3 d; p3 e. cbn. ring. }
  rewrite ED, Rabs_Ropp.
  destruct (Rltb (Rabs D) (1 / 1000000)) eqn:ES.
  { apply Rltb_true in ES. split; [discriminate|]. intros [H _]. lra. }
  apply Rltb_false in ES. assert (HD : D <> 0) by (intros E; rewrite E, Rabs_R0 in ES; lra).
  set (u := dot3 (cross3 (sub3 b a) (sub3 e c)) (sub3 a c) / D).
  set (v := dot3 (cross3 (sub3 a c) (sub3 d c)) (sub3 b a) / D).
  set (t := dot3 (cross3 (sub3 a c) (sub3 d c)) (sub3 e c) / D).
  assert (Sol : add3 a (scale3 t (sub3 b a)) = add3 c (add3 (scale3 u (sub3 d c)) (scale3 v (sub3 e c)))).
  { subst u v t D. p3 a; p3 b; p3 c; p3 d; p3 e. cbn in *. apply f_equal2; [apply f_equal2|]; field; exact HD. }
  assert (Uni : forall u' v' t', add3 a (scale3 t' (sub3 b a)) = add3 c (add3 (scale3 u' (sub3 d c)) (scale3 v' (sub3 e c))) ->
     u' = u /\ v' = v /\ t' = t).
  { intros u' v' t' H.
    assert (Hu : u' * D = dot3 (cross3 (sub3 b a) (sub3 e c)) (sub3 a c)).
    { transitivity (dot3 (cross3 (sub3 b a) (sub3 e c)) (sub3 (add3 c (add3 (scale3 u' (sub3 d c)) (scale3 v' (sub3 e c)))) c)).
      - unfold D. p3 a; p3 b; p3 c; p3 d; p3 e. cbn. ring.
      - rewrite <- H. p3 a; p3 b; p3 c; p3 d; p3 e. cbn. ring. }
    assert (Hv : v' * D = dot3 (cross3 (sub3 a c) (sub3 d c)) (sub3 b a)).
    { transitivity (dot3 (cross3 (sub3 (add3 c (add3 (scale3 u' (sub3 d c)) (scale3 v' (sub3 e c)))) c) (sub3 d c)) (sub3 b a)).
      - unfold D. p3 a; p3 b; p3 c; p3 d; p3 e. cbn. ring.
      - rewrite <- H. p3 a; p3 b; p3 c; p3 d; p3 e. cbn. ring. }
    assert (Ht : t' * D = dot3 (cross3 (sub3 a c) (sub3 d c)) (sub3 e c)).
    { assert (K : dot3 (cross3 (sub3 (add3 a (scale3 t' (sub3 b a))) c) (sub3 d c)) (sub3 e c) = 0).
      { rewrite H. p3 a; p3 b; p3 c; p3 d; p3 e. cbn. ring. }
      transitivity (dot3 (cross3 (sub3 a c) (sub3 d c)) (sub3 e c) - dot3 (cross3 (sub3 (add3 a (scale3 t' (sub3 b a))) c) (sub3 d c)) (sub3 e c)).
      - unfold D. p3 a; p3 b; p3 c; p3 d; p3 e. cbn. ring.
      - rewrite K. ring. }
    unfold u, v, t. repeat split; [rewrite <- Hu|rewrite <- Hv|rewrite <- Ht]; field; exact HD. }
  replace (0 - 1 / 1000000) with (- (1/1000000)) by lra.
  split.
  - intros H. split; [exact ES|]. exists u, v, t. split; [exact Sol|].
    destruct (Rleb _ u && Rleb u _) eqn:Eu; [|discriminate H]. apply andb_true_iff in Eu as [E1 E2]. apply Rleb_true in E1, E2.
    destruct (Rleb _ v && Rleb (u+v) _) eqn:Ev; [|discriminate H]. apply andb_true_iff in Ev as [E3 E4]. apply Rleb_true in E3, E4.
    apply andb_true_iff in H as [E5 E6]. apply Rleb_true in E5, E6. tauto.
  - intros (_ & u' & v' & t' & S & Hu & Hv & Huv & Ht). apply Uni in S as (-> & -> & ->).
    rewrite (proj2 (Rleb_true _ _) (proj1 Hu)), (proj2 (Rleb_true _ _) (proj2 Hu)), (proj2 (Rleb_true _ _) Hv),
      (proj2 (Rleb_true _ _) Huv), (proj2 (Rleb_true _ _) (proj1 Ht)), (proj2 (Rleb_true _ _) (proj2 Ht)). reflexivity.
Qed.
