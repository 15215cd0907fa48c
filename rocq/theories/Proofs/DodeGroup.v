(** The 24 dodecagonal operations, similarity, invariance of areas. *)
From Coq Require Import Reals List ZArith Lia Lra Bool Permutation Psatz.
From Verif Require Import Base.Res Model.Tau Model.Arr Model.DodeScalar Model.Vectors Model.IcoMath1 Model.DodeMath1
  Model.DodeSymmetry Model.Sign Model.DodeArea
  Spec.Value Spec.RVec Spec.Shape Spec.IcoSpec Spec.DodeSpec
  Proofs.ResLemmas Proofs.ValueLemmas Proofs.Irrational Proofs.ScalarLemmas Proofs.RVecLemmas Proofs.VectorLemmas
  Proofs.SymopLemmas Proofs.MatLemmas Proofs.MatDec Proofs.GroupLemmas Proofs.SignLemmas Proofs.IcoProj Proofs.IcoGroup
  Proofs.IcoVolumeLemmas Proofs.DodeProj.
Import ListNotations.
Local Open Scope R_scope.

Lemma dodesymop_length : length dodesymop = 24%nat.
Proof. vm_compute. reflexivity. Qed.
Lemma dodesymop_hd : nth_error dodesymop 0 = Some (identity 6).
Proof. vm_compute. reflexivity. Qed.
Lemma dodesymop_group : is_group 6 dodesymop.
Proof. apply groupb_sound; [lia|]. vm_compute. reflexivity. Qed.
Local Opaque dodesymop.

Definition SQ3 : R := 2 * SIN.
Lemma SQ3_sq : SQ3 * SQ3 = 3.
Proof. unfold SQ3. pose proof SIN_sq. lra. Qed.
Lemma SIN_half : SIN = SQ3 / 2.
Proof. unfold SQ3. lra. Qed.
Ltac fsin := rewrite ?SIN_half; field [SQ3_sq].

Ltac l2 v := destruct v as [|? [|? [|]]]; try discriminate.

Lemma list2 (r : list R) : length r = 2%nat -> exists x y, r = [x;y].
Proof. intros L; l2 r; eauto. Qed.

Lemma mat2 (a : list (list R)) : length a = 2%nat -> rect a 2 ->
  exists a1 a2 a3 a4, a = [[a1;a2];[a3;a4]].
Proof.
  intros L H. destruct a as [|r1 [|r2 [|]]]; try discriminate.
  pose proof (Forall_inv H) as H1. pose proof (Forall_inv (Forall_inv_tail H)) as H2. cbn beta in *.
  destruct (list2 r1 H1) as (? & ? & ->), (list2 r2 H2) as (? & ? & ->). repeat eexists.
Qed.

Definition m22 (a b : list (list R)) : list (list R) :=
  map (fun r => map (fun j => dot r (map (fun row => nth j row 0) b)) [0;1]%nat) a.
Lemma m22_spec a b x : length a = 2%nat -> rect a 2 -> length b = 2%nat -> rect b 2 -> length x = 2%nat ->
  matvec (m22 a b) x = matvec a (matvec b x).
Proof.
  intros La Ra Lb Rb Lx. destruct (mat2 a La Ra) as (a1&a2&a3&a4&->).
  destruct (mat2 b Lb Rb) as (b1&b2&b3&b4&->). l2 x.
  unfold m22. unvec. cbn [nth]. repeat (apply f_equal2; [ring|]). reflexivity.
Qed.
Lemma orthogonal2_compose a b : orthogonal 2 a -> orthogonal 2 b -> orthogonal 2 (m22 a b).
Proof.
  intros (La & Ra & Ha) (Lb & Rb & Hb). split; [|split].
  - unfold m22; rewrite map_length; exact La.
  - apply Forall_forall. intros r Hr. apply in_map_iff in Hr as (y & <- & _). reflexivity.
  - intros u v Lu Lv. rewrite !m22_spec by assumption.
    rewrite Ha by (rewrite matvec_length; assumption). apply Hb; assumption.
Qed.

Lemma par_plane_len x : length (par_plane x) = 2%nat.
Proof. reflexivity. Qed.
Lemma perp_plane_len x : length (perp_plane x) = 2%nat.
Proof. reflexivity. Qed.

Lemma sq_len op x : square 6 op -> length (matvec (IZRm op) x) = 6%nat.
Proof. intros S. rewrite matvec_length; unfold IZRm; rewrite map_length; apply S. Qed.

Lemma diso_compose a b : square 6 a -> square 6 b -> diso a -> diso b -> diso (matmul a b).
Proof.
  intros Sa Sb (P1 & Q1 & OP1 & OQ1 & H1) (P2 & Q2 & OP2 & OQ2 & H2).
  exists (m22 P1 P2), (m22 Q1 Q2). split; [|split]; try (apply orthogonal2_compose; assumption).
  intros x Lx. rewrite (matvec_mul 6) by (assumption || lia).
  pose proof (sq_len b x Sb) as L.
  destruct (H1 _ L) as (-> & -> & -> & ->). destruct (H2 _ Lx) as (-> & -> & -> & ->).
  destruct OP1 as (? & ? & _), OQ1 as (? & ? & _), OP2 as (? & ? & _), OQ2 as (? & ? & _).
  rewrite !m22_spec; auto.
Qed.

Lemma diso_identity : diso (identity 6).
Proof.
  exists (IZRm (identity 2)), (IZRm (identity 2)).
  assert (O : orthogonal 2 (IZRm (identity 2))).
  { split; [reflexivity|]. split; [repeat (apply Forall_cons; [reflexivity|]); apply Forall_nil|].
    intros u v Lu Lv. rewrite !matvec_identity by assumption. reflexivity. }
  split; [exact O|]. split; [exact O|].
  intros x Lx. rewrite (matvec_identity 6 x Lx).
  rewrite !matvec_identity by reflexivity. repeat split; reflexivity.
Qed.

Ltac orth2 := split; [reflexivity|]; split; [repeat (apply Forall_cons; [reflexivity|]); apply Forall_nil|];
  let u := fresh "u" in let v := fresh "v" in intros u v ? ?; l2 u; l2 v; unvec; fsin.
Ltac inter2 := intros x Lx; len6 x; unfold par_plane, perp_plane, dpar, dperp, dpar_rows, dperp_rows, IZRm;
  unvec; cbn [firstn nth map zipWith Rsum]; split; [|split; [|split]];
  [repeat (apply f_equal2; [fsin|]); reflexivity|repeat (apply f_equal2; [fsin|]); reflexivity|field|field].

Lemma diso_dm1 : diso dm1.
Proof.
  exists [[SIN; 1/2];[-1/2; SIN]], [[-SIN; 1/2];[-1/2; -SIN]]. split; [orth2|]. split; [orth2|].
  unfold dm1. inter2.
Qed.
Lemma diso_dm2 : diso dm2.
Proof.
  exists [[0; 1];[1; 0]], [[0; 1];[1; 0]]. split; [orth2|]. split; [orth2|].
  unfold dm2. inter2.
Qed.
Lemma diso_pow m k : square 6 m -> diso m -> diso (matrixpow m k).
Proof.
  intros Hs Hm. induction k; cbn.
  - destruct Hs as [-> _]. apply diso_identity.
  - apply diso_compose; auto. apply pow_square; [lia|assumption].
Qed.
Lemma dm_square : square 6 dm1 /\ square 6 dm2.
Proof. repeat split; try (apply squareb_square; reflexivity); repeat constructor. Qed.
Local Transparent dodesymop.
Lemma dodesymop_iso op : In op dodesymop -> diso op.
Proof.
  intros H. unfold dodesymop in H.
  apply in_flat_map in H as (i1 & _ & H). apply in_map_iff in H as (i2 & <- & _).
  destruct dm_square as (S1 & S2). cbv zeta.
  apply diso_compose; try (apply pow_square; [lia|assumption]);
    apply diso_pow; auto using diso_dm1, diso_dm2.
Qed.
Local Opaque dodesymop.

(** ** Similarity *)
Lemma pow_add n m i j : (0 < n)%nat -> square n m ->
  matmul (matrixpow m i) (matrixpow m j) = matrixpow m (i + j).
Proof.
  intros Hn Hm. induction j as [|j IH].
  - rewrite Nat.add_0_r. cbn [matrixpow]. rewrite (proj1 Hm). apply matmul_id_r; [exact Hn|].
    apply pow_square; assumption.
  - rewrite Nat.add_succ_r. cbn [matrixpow]. rewrite <- IH.
    apply (matmul_assoc n); try assumption; apply pow_square; assumption.
Qed.
Lemma pow_1 n m : (0 < n)%nat -> square n m -> matrixpow m 1 = m.
Proof. intros Hn Hm. cbn [matrixpow]. rewrite (proj1 Hm). apply matmul_id_l; assumption. Qed.
Lemma pow_S_l n m k : (0 < n)%nat -> square n m -> matrixpow m (S k) = matmul m (matrixpow m k).
Proof.
  intros Hn Hm. change (S k) with (1 + k)%nat. rewrite <- (pow_add n) by assumption.
  rewrite (pow_1 n) by assumption. reflexivity.
Qed.
Lemma pow_cancel n a b i j : (0 < n)%nat -> square n a -> square n b -> matmul a b = identity n ->
  (j <= i)%nat -> matmul (matrixpow a i) (matrixpow b j) = matrixpow a (i - j).
Proof.
  intros Hn Ha Hb E. revert i. induction j as [|j IH]; intros i Hij.
  - rewrite Nat.sub_0_r. cbn [matrixpow]. rewrite (proj1 Hb). apply matmul_id_r; [exact Hn|apply pow_square; assumption].
  - destruct i as [|i]; [lia|]. cbn [matrixpow Nat.sub].
    rewrite <- IH by lia.
    change (matmul (matrixpow b j) b) with (matrixpow b (S j)). rewrite (pow_S_l n b) by assumption.
    assert (Pi : square n (matrixpow a i)) by (apply pow_square; assumption).
    assert (Pj : square n (matrixpow b j)) by (apply pow_square; assumption).
    rewrite <- (matmul_assoc n (matrixpow a i) a (matmul b (matrixpow b j))); try assumption; [|apply matmul_square; assumption].
    rewrite (matmul_assoc n a b (matrixpow b j)) by assumption.
    rewrite E, (matmul_id_l n) by assumption. reflexivity.
Qed.
Lemma pow_cancel' n a b i j : (0 < n)%nat -> square n a -> square n b -> matmul a b = identity n ->
  (i <= j)%nat -> matmul (matrixpow a i) (matrixpow b j) = matrixpow b (j - i).
Proof.
  intros Hn Ha Hb E. revert j. induction i as [|i IH]; intros j Hij.
  - rewrite Nat.sub_0_r. cbn [matrixpow]. rewrite (proj1 Ha). apply matmul_id_l; [exact Hn|apply pow_square; assumption].
  - destruct j as [|j]; [lia|]. cbn [Nat.sub]. rewrite <- IH by lia.
    rewrite (pow_S_l n b) by assumption. cbn [matrixpow].
    assert (Pi : square n (matrixpow a i)) by (apply pow_square; assumption).
    assert (Pj : square n (matrixpow b j)) by (apply pow_square; assumption).
    rewrite <- (matmul_assoc n (matrixpow a i) a (matmul b (matrixpow b j))); try assumption; [|apply matmul_square; assumption].
    rewrite (matmul_assoc n a b (matrixpow b j)) by assumption.
    rewrite E, (matmul_id_l n) by assumption. reflexivity.
Qed.

Definition SA := transp sim_pos.
Definition SB := transp sim_neg.
Lemma SA_square : square 6 SA. Proof. apply squareb_square. reflexivity. Qed.
Lemma SB_square : square 6 SB. Proof. apply squareb_square. reflexivity. Qed.
Lemma SAB : matmul SA SB = identity 6. Proof. vm_compute. reflexivity. Qed.
Lemma SBA : matmul SB SA = identity 6. Proof. vm_compute. reflexivity. Qed.

Lemma similarity_nonneg k : similarity (Z.of_nat k) = matrixpow SA k.
Proof.
  unfold similarity. destruct k as [|k]; [reflexivity|].
  destruct (Z.ltb_spec 0 (Z.of_nat (S k))); [|lia]. rewrite Nat2Z.id. reflexivity.
Qed.
Lemma similarity_nonpos k : similarity (- Z.of_nat k) = matrixpow SB k.
Proof.
  unfold similarity. destruct k as [|k]; [reflexivity|].
  destruct (Z.ltb_spec 0 (- Z.of_nat (S k))); [lia|]. destruct (Z.ltb_spec (- Z.of_nat (S k)) 0); [|lia].
  rewrite Z.opp_involutive, Nat2Z.id. reflexivity.
Qed.
Lemma Z_cases m : exists k, m = Z.of_nat k \/ m = (- Z.of_nat k)%Z.
Proof. exists (Z.abs_nat m). lia. Qed.
Lemma similarity_square m : square 6 (similarity m).
Proof.
  destruct (Z_cases m) as (k & [-> | ->]); [rewrite similarity_nonneg|rewrite similarity_nonpos];
    apply pow_square; try lia; [apply SA_square|apply SB_square].
Qed.
Lemma similarity_mul m n : matmul (similarity m) (similarity n) = similarity (m + n).
Proof.
  pose proof SA_square as HA. pose proof SB_square as HB. assert (P : (0 < 6)%nat) by lia.
  destruct (Z_cases m) as (i & [-> | ->]), (Z_cases n) as (j & [-> | ->]);
    rewrite ?similarity_nonneg, ?similarity_nonpos.
  - rewrite (pow_add 6) by assumption. rewrite <- similarity_nonneg. f_equal; lia.
  - destruct (Nat.le_gt_cases j i).
    + rewrite (pow_cancel 6) by (assumption || apply SAB). rewrite <- similarity_nonneg. f_equal; lia.
    + rewrite (pow_cancel' 6) by (assumption || apply SAB || lia). rewrite <- similarity_nonpos. f_equal; lia.
  - destruct (Nat.le_gt_cases j i).
    + rewrite (pow_cancel 6) by (assumption || apply SBA). rewrite <- similarity_nonpos. f_equal; lia.
    + rewrite (pow_cancel' 6) by (assumption || apply SBA || lia). rewrite <- similarity_nonneg. f_equal; lia.
  - rewrite (pow_add 6) by assumption. rewrite <- similarity_nonpos. f_equal; lia.
Qed.

(** Rotation-scaling of both planes. *)
Definition conf (op : list (list Z)) (p q r t : R) : Prop :=
  forall x, length x = 6%nat ->
    perp_plane (matvec (IZRm op) x) = rotscale p q (perp_plane x) /\
    par_plane (matvec (IZRm op) x) = rotscale r t (par_plane x) /\
    nth 4 (matvec (IZRm op) x) 0 = nth 4 x 0 /\ nth 5 (matvec (IZRm op) x) 0 = nth 5 x 0.

Ltac inter3 := intros x Lx; len6 x; unfold par_plane, perp_plane, dpar, dperp, dpar_rows, dperp_rows, IZRm;
  unvec; cbn [firstn nth rotscale map zipWith Rsum]; split; [|split; [|split]];
  [repeat (apply f_equal2; [fsin|]); reflexivity|repeat (apply f_equal2; [fsin|]); reflexivity|field|field].

Lemma conf_SA : conf SA (1-SIN) (1/2) (1+SIN) (1/2).
Proof. change SA with ltac:(let v := eval vm_compute in SA in exact v). unfold conf. inter3. Qed.
Lemma conf_SB : conf SB (1/2) (-(1+SIN)) (1/2) (-(1-SIN)).
Proof. change SB with ltac:(let v := eval vm_compute in SB in exact v). unfold conf. inter3. Qed.

Lemma conf_compose a b p q r t p' q' r' t' : square 6 a -> square 6 b -> conf a p q r t -> conf b p' q' r' t' ->
  conf (matmul a b) (p*p'-q*q') (p*q'+q*p') (r*r'-t*t') (r*t'+t*r').
Proof.
  intros Sa Sb Ha Hb x Lx. rewrite (matvec_mul 6) by (assumption || lia).
  pose proof (sq_len b x Sb) as L.
  destruct (Ha _ L) as (-> & -> & -> & ->). destruct (Hb _ Lx) as (-> & -> & -> & ->).
  pose proof (perp_plane_len x) as L1. pose proof (par_plane_len x) as L2.
  destruct (list2 _ L1) as (a1 & a2 & ->), (list2 _ L2) as (b1 & b2 & ->). cbn [rotscale].
  split; [|split; [|split]]; try reflexivity; repeat (apply f_equal2; [ring|]); reflexivity.
Qed.
Lemma conf_identity : conf (identity 6) 1 0 1 0.
Proof.
  intros x Lx. rewrite (matvec_identity 6 x Lx).
  pose proof (perp_plane_len x) as L1. pose proof (par_plane_len x) as L2.
  destruct (list2 _ L1) as (a1 & a2 & ->), (list2 _ L2) as (b1 & b2 & ->). cbn [rotscale].
  split; [|split; [|split]]; try reflexivity; repeat (apply f_equal2; [ring|]); reflexivity.
Qed.
Lemma conf_unique op p q r t p' q' r' t' : conf op p q r t -> conf op p' q' r' t' -> p = p' /\ q = q' /\ r = r' /\ t = t'.
Proof.
  intros H H'. specialize (H [0;1;0;0;0;0] eq_refl). specialize (H' [0;1;0;0;0;0] eq_refl).
  destruct H as (E1 & E2 & _), H' as (E1' & E2' & _).
  rewrite E1 in E1'. rewrite E2 in E2'. unfold perp_plane, par_plane, dperp, dpar, matvec, dot in E1', E2'.
  cbn in E1', E2'. injection E1' as A1 A2. injection E2' as B1 B2. lra.
Qed.

(** Polar form. *)
Lemma conf_pow M a th b ph k : square 6 M -> conf M (a * cos th) (a * sin th) (b * cos ph) (b * sin ph) ->
  conf (matrixpow M k) (a ^ k * cos (INR k * th)) (a ^ k * sin (INR k * th))
                       (b ^ k * cos (INR k * ph)) (b ^ k * sin (INR k * ph)).
Proof.
  intros S H. induction k as [|k IH].
  - cbn [matrixpow pow INR]. rewrite (proj1 S), !Rmult_0_l, cos_0, sin_0, !Rmult_1_l. apply conf_identity.
  - cbn [matrixpow].
    pose proof (conf_compose _ _ _ _ _ _ _ _ _ _ (pow_square 6 M k ltac:(lia) S) S IH H) as C.
    rewrite S_INR, !Rmult_plus_distr_r, !Rmult_1_l, !cos_plus, !sin_plus. cbn [pow].
    replace (a * a ^ k * (cos (INR k * th) * cos th - sin (INR k * th) * sin th)) with
      (a ^ k * cos (INR k * th) * (a * cos th) - a ^ k * sin (INR k * th) * (a * sin th)) by ring.
    replace (a * a ^ k * (sin (INR k * th) * cos th + cos (INR k * th) * sin th)) with
      (a ^ k * cos (INR k * th) * (a * sin th) + a ^ k * sin (INR k * th) * (a * cos th)) by ring.
    replace (b * b ^ k * (cos (INR k * ph) * cos ph - sin (INR k * ph) * sin ph)) with
      (b ^ k * cos (INR k * ph) * (b * cos ph) - b ^ k * sin (INR k * ph) * (b * sin ph)) by ring.
    replace (b * b ^ k * (sin (INR k * ph) * cos ph + cos (INR k * ph) * sin ph)) with
      (b ^ k * cos (INR k * ph) * (b * sin ph) + b ^ k * sin (INR k * ph) * (b * cos ph)) by ring.
    exact C.
Qed.

Lemma sq_pos_eq x y : 0 <= x -> 0 <= y -> x * x = y * y -> x = y.
Proof. intros. nra. Qed.

Lemma polar r th s p q : 0 < r -> r * r = 2 + 2 * s -> 0 <= th <= PI / 2 -> cos (2 * th) = s ->
  0 <= p -> 0 <= q -> p = 1 + s -> q * q = 1 - s * s ->
  r * cos th = p /\ r * sin th = q.
Proof.
  intros Hr Er Hth Hc Hp Hq -> Eq. pose proof PI_RGT_0 as HP.
  assert (C0 : 0 <= cos th) by (apply cos_ge_0; lra).
  assert (S0 : 0 <= sin th) by (apply sin_ge_0; lra).
  pose proof (cos_2a_cos th) as E1. pose proof (sin2_cos2 th) as E2. unfold Rsqr in E2.
  split; apply sq_pos_eq; nra.
Qed.

Lemma PI6_SIN : cos (PI / 6) = SIN.
Proof. rewrite cos_PI6. reflexivity. Qed.
Lemma two_SIN : 2 * SIN = sqrt 3.
Proof. unfold SIN. lra. Qed.

Lemma polar_perp : let r := sqrt (2 - sqrt 3) in
  r * cos (5*PI/12) = 1 - SIN /\ r * sin (5*PI/12) = 1/2.
Proof.
  cbv zeta. rewrite <- two_SIN. pose proof SIN_bounds. pose proof PI_RGT_0. pose proof SIN_sq.
  apply (polar _ _ (-SIN)); try lra; [apply sqrt_lt_R0; lra|rewrite sqrt_sqrt; lra|].
  replace (2 * (5*PI/12)) with (PI - PI/6) by field. rewrite Rtrigo_facts.cos_pi_minus, PI6_SIN. reflexivity.
Qed.
Lemma polar_par : let r := sqrt (2 + sqrt 3) in
  r * cos (PI/12) = 1 + SIN /\ r * sin (PI/12) = 1/2.
Proof.
  cbv zeta. rewrite <- two_SIN. pose proof SIN_bounds. pose proof PI_RGT_0. pose proof SIN_sq.
  apply (polar _ _ SIN); try lra; [apply sqrt_lt_R0; lra|rewrite sqrt_sqrt; lra|].
  replace (2 * (PI/12)) with (PI/6) by field. apply PI6_SIN.
Qed.

Lemma similarity_polar m : let r := sqrt (2 - sqrt 3) in let r' := sqrt (2 + sqrt 3) in
  conf (similarity m) (powerRZ r m * cos (IZR m * (5*PI/12))) (powerRZ r m * sin (IZR m * (5*PI/12)))
                      (powerRZ r' m * cos (IZR m * (PI/12))) (powerRZ r' m * sin (IZR m * (PI/12))).
Proof.
  cbv zeta. destruct polar_perp as [P1 P2], polar_par as [Q1 Q2].
  pose proof SIN_bounds as HB. pose proof two_SIN as T2. pose proof SIN_sq as HS.
  set (r := sqrt (2 - sqrt 3)) in *. set (r' := sqrt (2 + sqrt 3)) in *.
  assert (R1 : r * r = 2 - 2 * SIN) by (unfold r; rewrite sqrt_sqrt; lra).
  assert (R2 : r' * r' = 2 + 2 * SIN) by (unfold r'; rewrite sqrt_sqrt; lra).
  assert (N1 : r <> 0) by (intros E; rewrite E in R1; lra).
  assert (N2 : r' <> 0) by (intros E; rewrite E in R2; lra).
  destruct (Z_cases m) as (k & [-> | ->]).
  - rewrite similarity_nonneg, <- INR_IZR_INZ, <- !pow_powerRZ. apply conf_pow; [apply SA_square|].
    rewrite P1, P2, Q1, Q2. apply conf_SA.
  - rewrite similarity_nonpos, opp_IZR, <- INR_IZR_INZ.
    rewrite !powerRZ_neg'. rewrite <- !powerRZ_inv'. rewrite <- !pow_powerRZ.
    replace (- INR k * (5*PI/12)) with (INR k * (-(5*PI/12))) by ring.
    replace (- INR k * (PI/12)) with (INR k * (-(PI/12))) by ring.
    apply conf_pow; [apply SB_square|]. rewrite !cos_neg, !sin_neg.
    replace (/ r * cos (5*PI/12)) with (1/2); [|rewrite <- (Rmult_1_r (/ r * _)); replace (/ r * cos (5 * PI / 12) * 1) with ((r * cos (5 * PI / 12)) / (r*r)) by (field; assumption); rewrite P1, R1; field; lra].
    replace (/ r * - sin (5*PI/12)) with (-(1+SIN)); [|replace (/ r * - sin (5 * PI / 12)) with (- ((r * sin (5 * PI / 12)) / (r*r))) by (field; assumption); rewrite P2, R1; field_simplify_eq; [|lra]; lra].
    replace (/ r' * cos (PI/12)) with (1/2); [|replace (/ r' * cos (PI / 12)) with ((r' * cos (PI / 12)) / (r'*r')) by (field; assumption); rewrite Q1, R2; field; lra].
    replace (/ r' * - sin (PI/12)) with (-(1-SIN)); [|replace (/ r' * - sin (PI / 12)) with (- ((r' * sin (PI / 12)) / (r'*r'))) by (field; assumption); rewrite Q2, R2; field_simplify_eq; [|lra]; lra].
    apply conf_SB.
Qed.

(** ** Areas under affine maps of the plane *)
Lemma triarea_affine a b c d s1 s2 l : pairs l -> length l = 3%nat ->
  triarea (map (fun v => vadd (matvec [[a;b];[c;d]] v) [s1;s2]) l) = Rabs (a*d-b*c) * triarea l.
Proof.
  intros H L. destruct l as [|p [|q [|r [|]]]]; try discriminate.
  pose proof (Forall_inv H) as Hp. pose proof (Forall_inv (Forall_inv_tail H)) as Hq.
  pose proof (Forall_inv (Forall_inv_tail (Forall_inv_tail H))) as Hr. cbn beta in *.
  l2 p; l2 q; l2 r. unvec. cbn [map zipWith Rsum triarea].
  unfold Rdiv. rewrite <- Rmult_assoc, <- Rabs_mult. f_equal. f_equal. ring.
Qed.

Lemma orth2_det M : orthogonal 2 M -> exists a b c d, M = [[a;b];[c;d]] /\ Rabs (a*d-b*c) = 1.
Proof.
  intros (L & Rm & H). destruct (mat2 M L Rm) as (a & b & c & d & ->). exists a, b, c, d. split; [reflexivity|].
  pose proof (H [1;0] [1;0] eq_refl eq_refl) as H1. pose proof (H [0;1] [0;1] eq_refl eq_refl) as H2.
  pose proof (H [1;0] [0;1] eq_refl eq_refl) as H3.
  unfold matvec, dot in H1, H2, H3. cbn in H1, H2, H3.
  assert (E : (a*d-b*c)*(a*d-b*c) = 1).
  { replace ((a*d-b*c)*(a*d-b*c)) with ((a*a+c*c)*(b*b+d*d) - (a*b+c*d)*(a*b+c*d)) by ring.
    replace (a*a+c*c) with 1 by lra. replace (b*b+d*d) with 1 by lra. replace (a*b+c*d) with 0 by lra. ring. }
  apply sq_pos_eq; [apply Rabs_pos|lra|]. rewrite <- Rabs_mult, E. rewrite Rabs_R1. lra.
Qed.

Lemma perp_plane_vadd x y : length x = 6%nat -> length y = 6%nat ->
  perp_plane (vadd x y) = vadd (perp_plane x) (perp_plane y).
Proof.
  intros Lx Ly. unfold perp_plane, dperp. rewrite matvec_vadd by lia.
  unfold dperp_rows, matvec, vadd. reflexivity.
Qed.
Lemma perp_plane_vsub x y : length x = 6%nat -> length y = 6%nat ->
  perp_plane (vsub x y) = vsub (perp_plane x) (perp_plane y).
Proof.
  intros Lx Ly. unfold perp_plane, dperp. rewrite matvec_vsub by lia.
  unfold dperp_rows, matvec, vsub. reflexivity.
Qed.

Lemma perp_plane_affine a b c d op x y :
  (forall z, length z = 6%nat -> perp_plane (matvec (IZRm op) z) = matvec [[a;b];[c;d]] (perp_plane z)) ->
  square 6 op -> length x = 6%nat -> length y = 6%nat ->
  exists s1 s2, vsub (perp_plane y) (matvec [[a;b];[c;d]] (perp_plane y)) = [s1;s2] /\
   perp_plane (act op y x) = vadd (matvec [[a;b];[c;d]] (perp_plane x)) [s1;s2].
Proof.
  intros H S Lx Ly.
  destruct (list2 _ (perp_plane_len y)) as (y1 & y2 & Ey).
  destruct (list2 _ (perp_plane_len x)) as (x1 & x2 & Ex).
  eexists _, _. rewrite Ey. split; [unvec; reflexivity|].
  unfold act. rewrite perp_plane_vadd by (try assumption; apply sq_len; exact S).
  rewrite H by (rewrite vsub_length; lia). rewrite perp_plane_vsub by assumption. rewrite Ex, Ey.
  unvec. cbn [map zipWith Rsum]. repeat (apply f_equal2; [ring|]). reflexivity.
Qed.

Lemma parea_vals t t' : map (vals SIN) t = map (vals SIN) t' -> parea t = parea t'.
Proof.
  intros E. unfold parea. rewrite <- (map_map (vals SIN) perp_plane t), <- (map_map (vals SIN) perp_plane t'), E. reflexivity.
Qed.

Lemma parea_affine a b c d op y t t' k :
  (forall z, length z = 6%nat -> perp_plane (matvec (IZRm op) z) = matvec [[a;b];[c;d]] (perp_plane z)) ->
  Rabs (a*d-b*c) = k -> square 6 op -> length y = 6%nat -> length t = 3%nat -> goods 6 t ->
  map (vals SIN) t' = map (fun v => act op y (vals SIN v)) t ->
  parea t' = k * parea t.
Proof.
  intros H <- S Ly Lt Gt E. unfold parea.
  rewrite <- (map_map (vals SIN) perp_plane t'), E, map_map.
  destruct (list2 _ (perp_plane_len y)) as (y1 & y2 & Ey).
  destruct (perp_plane_affine a b c d op y y H S Ly Ly) as (s1 & s2 & Es & _).
  rewrite <- (triarea_affine a b c d s1 s2); [|apply Forall_forall; intros p Hp; apply in_map_iff in Hp as (v & <- & _); reflexivity|rewrite map_length; exact Lt].
  f_equal. rewrite map_map. apply map_ext_in. intros v Hv.
  assert (Gv : good 6 v) by (eapply Forall_forall in Gt; eassumption). destruct Gv as [Wv Lv].
  destruct (perp_plane_affine a b c d op (vals SIN v) y H S) as (u1 & u2 & Eu & ->); [rewrite vals_length; exact Lv|exact Ly|].
  rewrite Es in Eu. injection Eu as <- <-. reflexivity.
Qed.

Lemma parea_act op y t t' : In op dodesymop -> length y = 6%nat -> length t = 3%nat -> goods 6 t ->
  map (vals SIN) t' = map (fun v => act op y (vals SIN v)) t -> parea t' = parea t.
Proof.
  intros Hop Ly Lt Gt E. destruct (dodesymop_iso op Hop) as (Mp & Mq & _ & OQ & HI).
  destruct (orth2_det Mq OQ) as (a & b & c & d & -> & D).
  assert (S : square 6 op) by (apply (ig_sq _ _ dodesymop_group); exact Hop).
  rewrite (parea_affine a b c d op y t t' 1); try assumption; [ring|].
  intros z Lz. apply (HI z Lz).
Qed.
Lemma parea_shift s t t' : length s = 6%nat -> length t = 3%nat -> goods 6 t ->
  map (vals SIN) t' = map (fun v => vadd (vals SIN v) s) t -> parea t' = parea t.
Proof.
  intros Ls Lt Gt E. unfold parea.
  rewrite <- (map_map (vals SIN) perp_plane t'), E, map_map.
  destruct (list2 _ (perp_plane_len s)) as (s1 & s2 & Es).
  transitivity (Rabs (1*1-0*0) * triarea (map (fun v => perp_plane (vals SIN v)) t)).
  2:{ replace (1*1-0*0) with 1 by ring. rewrite Rabs_R1. ring. }
  rewrite <- (triarea_affine 1 0 0 1 s1 s2); [|apply Forall_forall; intros p Hp; apply in_map_iff in Hp as (v & <- & _); reflexivity|rewrite map_length; exact Lt].
  f_equal. rewrite map_map. apply map_ext_in. intros v Hv.
  assert (Gv : good 6 v) by (eapply Forall_forall in Gt; eassumption). destruct Gv as [Wv Lv].
  rewrite perp_plane_vadd by (rewrite ?vals_length; assumption). rewrite Es.
  destruct (list2 _ (perp_plane_len (vals SIN v))) as (x1 & x2 & ->).
  unvec. cbn [map zipWith Rsum]. repeat (apply f_equal2; [ring|]). reflexivity.
Qed.
