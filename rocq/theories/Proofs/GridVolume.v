(** Volumes and areas computed on the machine. *)
From Coq Require Import Reals List ZArith Lia Lra Bool Psatz.
From Verif Require Import Base.Res Model.Tau Model.Arr Model.IcoScalar Model.DodeScalar Model.Vectors Model.IcoMath1 Model.DodeMath1 Model.Sign Model.Num Model.IcoNumeric Model.DodeNumeric
  Model.IcoVolume Model.DodeArea Model.Machine Model.MachineVec
  Spec.Value Spec.RVec Spec.Shape Spec.Geometry Spec.IcoSpec Spec.DodeSpec Spec.Grid
  Proofs.ResLemmas Proofs.ValueLemmas Proofs.ScalarLemmas Proofs.Irrational Proofs.MachineLemmas Proofs.SignLemmas Proofs.IcoVolumeLemmas Proofs.DodeAreaLemmas Proofs.GridLemmas Proofs.GridSign.
Import ListNotations.
Local Open Scope Z_scope.

(** ** Projection *)
Lemma coef_one q B z : z = 1 \/ z = -1 -> q <= cap -> 3 * B <= cap -> coef (mmul := m_mul) (mul := mul) q q B 1 (T z 0 1).
Proof.
  intros Hz Hq HB x G. replace q with (q * 1) at 1 by ring. replace 1 with (Z.abs z) at 2 by lia.
  apply (mo_rat_l _ _ _ _ _ _ _ ico_machine q B z 1 x); [lia|exact G|lia| |unfold cap; lia]. replace (Z.abs z) with 1 by lia. lia.
Qed.
Lemma coef_zero q B : q <= cap -> coef (mmul := m_mul) (mul := mul) q q B 0 (T 0 0 1).
Proof.
  intros Hq x G. replace q with (q * 1) at 1 by ring. change 0 with (Z.abs 0) at 1.
  apply (mo_rat_l _ _ _ _ _ _ _ ico_machine q B 0 1 x); [lia|exact G|lia|cbn; unfold cap; lia|unfold cap; cbn; lia].
Qed.
Lemma coef_tau q B z : z = 1 \/ z = -1 -> q <= cap -> 3 * B <= cap -> coef (mmul := m_mul) (mul := mul) q q B 2 (T 0 z 1).
Proof.
  intros Hz Hq HB x G. pose proof (proj1 G) as Pq. destruct (grid_val TAU _ _ _ G) as (a & b & Ha & Hb & E).
  assert (Gz : on_grid 1 1 (T 0 z 1)) by (split; [lia|]; exists 1; cbn [ta tb tc]; lia).
  apply (same_intro TAU q _ (z * b) (z * (a + b))); [exact TAU_irrational|exact Pq|apply (m_mul_grid 1 q 1 B _ _ Gz G); lia| | |].
  - eapply wp_mono; [apply (ao_mul _ _ _ ico_arith); eapply grid_wf; eassumption|]. intros r [Cr Vr]. split; [exact Cr|]. rewrite Vr, E. unfold val. cbn [ta tb tc]. rewrite !mult_IZR, plus_IZR. field [TAU_sq]. apply not_0_IZR. lia.
  - rewrite Z.abs_mul. nia.
  - rewrite Z.abs_mul. nia.
Qed.
Ltac cf := lazymatch goal with |- coef _ _ _ 2 _ => simple apply coef_tau; [auto|assumption|assumption] | |- coef _ _ _ 1 _ => simple apply coef_one; [auto|assumption|assumption] | |- coef _ _ _ 0 _ => simple apply coef_zero; assumption end.
Lemma projection3_grid q B v : gridv 6 q B v -> 0 <= B -> 0 < q -> q * q <= cap -> 6 * B * q <= cap -> same (gridv 3 q (6 * B)) (m_projection3 v) (projection3 v).
Proof.
  intros G PB Pq Hq HB. assert (Lq : q <= cap) by nia. assert (LB : 3 * B <= cap) by nia. unfold m_projection3, projection3, m_mtrixcal, mtrixcal, m0, m1, m2, m3, m4.
  eapply same_bind; [simple apply (mtrixcal_grid ico_machine q q B) with (s1 := 2) (s2 := 1) (s3 := 1) (s4 := 0) (s5 := 2) (s6 := 0); [exact G|lia|lia|lia|lia|lia|lia|lia|lia|cf|cf|cf|cf|cf|cf|exact Hq|clear - HB; lia]|].
  intros x Gx. eapply same_bind; [simple apply (mtrixcal_grid ico_machine q q B) with (s1 := 1) (s2 := 0) (s3 := 0) (s4 := 2) (s5 := 1) (s6 := 2); [exact G|lia|lia|lia|lia|lia|lia|lia|lia|cf|cf|cf|cf|cf|cf|exact Hq|clear - HB; lia]|].
  intros y Gy. eapply same_bind; [simple apply (mtrixcal_grid ico_machine q q B) with (s1 := 0) (s2 := 2) (s3 := 2) (s4 := 1) (s5 := 0) (s6 := 1); [exact G|lia|lia|lia|lia|lia|lia|lia|lia|cf|cf|cf|cf|cf|cf|exact Hq|clear - HB; lia]|].
  intros z Gz. apply same_ret. split; [reflexivity|]. repeat (apply Forall_cons; [assumption|]). apply Forall_nil.
Qed.

(** ** The volume of a tetrahedron *)
Definition vdet_ (p3 : vec -> res vec) (subv : vec -> vec -> res vec) (outer : vec -> vec -> res vec) (inner : vec -> vec -> res (option tau)) (t : vecs) : res tau :=
  bind (get t 0) (fun q0 => bind (p3 q0) (fun v0 => bind (get t 1) (fun q1 => bind (p3 q1) (fun v1 => bind (get t 2) (fun q2 => bind (p3 q2) (fun v2 => bind (get t 3) (fun q3 => bind (p3 q3) (fun v3 =>
  bind (subv v1 v0) (fun d1 => bind (subv v2 v0) (fun d2 => bind (subv v3 v0) (fun d3 => bind (outer d1 d2) (fun v => bind (inner v d3) notNone)))))))))))).
Definition vfin (neg : bool) (mmul : tau -> tau -> res tau) (v : tau) : res tau := if neg then mmul v (T (-1) 0 6) else mmul v (T 1 0 6).
Lemma vol_split t : tetrahedron_volume_6d_3 t = bind (vdet_ projection3 sub_vectors outer_product inner_product t) (fun v => vfin (neg_tau v) mul v).
Proof.
  unfold tetrahedron_volume_6d_3, vdet_, tetrahedron_volume, vfin. rewrite !bind_assoc.
  repeat (apply bind_ext; intros ?; rewrite ?bind_assoc). cbn [get nth_error bind]. repeat (apply bind_ext; intros ?; rewrite ?bind_assoc). reflexivity.
Qed.
Lemma m_vol_split t : m_tetrahedron_volume_6d_3 t = bind (vdet_ m_projection3 m_sub_vectors m_outer_product m_inner_product t) (fun v => vfin (flt Bnum (numeric_value Bnum v) (fZ Bnum 0)) m_mul v).
Proof.
  unfold m_tetrahedron_volume_6d_3, vdet_, m_tetrahedron_volume, vfin. rewrite !bind_assoc.
  repeat (apply bind_ext; intros ?; rewrite ?bind_assoc). cbn [get nth_error bind]. repeat (apply bind_ext; intros ?; rewrite ?bind_assoc). reflexivity.
Qed.
Lemma cube_le M q L : 0 <= M -> 0 < q -> M * q <= L -> M * M * M * (q * q * q) <= L * L * L.
Proof. intros. replace (M * M * M * (q * q * q)) with (M * q * (M * q) * (M * q)) by ring. assert (0 <= M * q) by nia. assert (M * q * (M * q) <= L * L) by nia. nia. Qed.
Lemma vdet_grid q M t : length t = 4%nat -> grids 6 q M t -> 0 <= M -> 0 < q <= 400 -> M * q <= 4500 ->
  same (on_grid (q * q * q) (93312 * (M * M * M))) (vdet_ m_projection3 m_sub_vectors m_outer_product m_inner_product t) (vdet_ projection3 sub_vectors outer_product inner_product t).
Proof.
  intros L G PM [Pq Lq] H. destruct t as [|t0 [|t1 [|t2 [|t3 [|? ?]]]]]; try discriminate.
  inversion G as [|? ? G0 Gt]; subst. inversion Gt as [|? ? G1 Gt1]; subst. inversion Gt1 as [|? ? G2 Gt2]; subst. inversion Gt2 as [|? ? G3 _]; subst. clear G Gt Gt1 Gt2.
  assert (LM : M <= 4500) by nia. assert (Q2 : 1 <= q * q <= 160000) by nia. assert (Q3 : 1 <= q * q * q <= 64000000) by nia.
  assert (M2 : 0 <= M * M * (q * q) <= 20250000) by nia. assert (M3 := cube_le M q 4500 PM Pq H). assert (M4 : 0 <= M * M <= M * M * (q * q)) by nia.
  assert (M5 : 0 <= M * M * M <= M * M * M * (q * q * q)) by nia.
  unfold vdet_. cbn [get nth_error bind].
  assert (P : forall v, gridv 6 q M v -> same (gridv 3 q (6 * M)) (m_projection3 v) (projection3 v)) by (intros v Gv; apply projection3_grid; try assumption; unfold cap; lia).
  eapply same_bind; [apply P; eassumption|]. intros v0 V0. eapply same_bind; [apply P; eassumption|]. intros v1 V1. eapply same_bind; [apply P; eassumption|]. intros v2 V2. eapply same_bind; [apply P; eassumption|]. intros v3 V3.
  assert (S : forall u, gridv 3 q (6 * M) u -> same (gridv 3 q (12 * M)) (m_sub_vectors u v0) (sub_vectors u v0)).
  { intros u Gu. replace (12 * M) with (6 * M + 6 * M) by ring. apply (sub_vectors_grid ico_machine); try assumption; unfold cap; lia. }
  eapply same_bind; [apply S; eassumption|]. intros d1 D1. eapply same_bind; [apply S; eassumption|]. intros d2 D2. eapply same_bind; [apply S; eassumption|]. intros d3 D3.
  eapply same_bind; [apply (outer_grid ico_machine q q (12 * M) (12 * M)); try eassumption; unfold cap; nia|]. intros c Gc.
  assert (Q6 : q * q * q * (q * q * q) <= 64000000 * 64000000) by (apply Z.mul_le_mono_nonneg; lia).
  eapply same_bind.
  { apply (inner_grid ico_machine 3 (1 * (q * q)) q (2 * (3 * (12 * M * (12 * M)))) (12 * M)); [exact Gc|exact D3|lia|lia|lia|lia| | | |]; unfold cap; change (Z.of_nat 3) with 3.
    - replace (1 * (1 * (q * q) * q) * (1 * (1 * (q * q) * q))) with (q * q * q * (q * q * q)) by ring. lia.
    - replace (3 * (2 * (3 * (12 * M * (12 * M))) * (12 * M))) with (31104 * (M * M * M)) by ring. lia.
    - replace (2 * (3 * (12 * M * (12 * M)))) with (864 * (M * M)) by ring. lia.
    - replace (3 * (3 * (2 * (3 * (12 * M * (12 * M))) * (12 * M))) * (1 * (1 * (q * q) * q))) with (93312 * (M * M * M * (q * q * q))) by ring. lia. }
  intros r (v & -> & Gv). cbn [notNone]. apply same_ret. eapply grid_weaken; [replace (q * q * q) with (1 * (1 * (q * q) * q)) by ring; exact Gv|]. change (Z.of_nat 3) with 3. apply Z.eq_le_incl. ring.
Qed.
Lemma tets_of q M t : length t = 4%nat -> grids 6 q M t -> goods 6 t.
Proof. intros _ G. eapply Forall_impl; [|exact G]. intros v [L F]. split; [|exact L]. eapply Forall_impl; [|exact F]. intros x Gx. eapply grid_wf; eassumption. Qed.
Lemma volume_grid q M t : length t = 4%nat -> grids 6 q M t -> 0 <= M -> 0 < q <= 400 -> M * q <= 3000 -> clear_vol q M t ->
  same (fun v => on_grid (6 * (q * q * q)) (93312 * (M * M * M)) v /\ canon v /\ val TAU v = pvol t) (m_tetrahedron_volume_6d_3 t) (tetrahedron_volume_6d_3 t).
Proof.
  intros L G PM Hq H Cl. pose proof (tets_of q M t L G) as Gt. pose proof (tetvol6_spec t L Gt) as V. destruct (wp_elim _ _ V) as (r & Er & Cr & Vr).
  destruct (vdet_grid q M t L G PM Hq ltac:(lia)) as (v & Em & Ee & Gv).
  assert (LM : M <= 3000) by nia. assert (Q3 : 1 <= q * q * q <= 64000000) by nia. assert (M3 : 0 <= M * M * M <= 27000000000) by nia.
  rewrite m_vol_split, Em, Er. cbn [bind]. rewrite vol_split, Ee in Er. cbn [bind] in Er.
  pose proof (grid_wf _ _ _ Gv) as Wv. destruct canon_wf_const as [K1 K2].
  assert (Av : Rabs (val TAU v) = (6 * Rabs (pvol t))%R).
  { rewrite <- Vr. unfold vfin in Er. destruct (neg_tau v).
    - destruct (wp_elim _ _ (ao_mul _ _ _ ico_arith v _ Wv K1)) as (r' & Er' & _ & Vr'). rewrite Er in Er'. injection Er' as <-. rewrite Vr', Rabs_mult. unfold val at 3. cbn [ta tb tc]. replace (Rabs ((-1 + 0 * TAU) / 6)) with (/6)%R; [field|]. rewrite Rabs_left by lra. lra.
    - destruct (wp_elim _ _ (ao_mul _ _ _ ico_arith v _ Wv K2)) as (r' & Er' & _ & Vr'). rewrite Er in Er'. injection Er' as <-. rewrite Vr', Rabs_mult. unfold val at 3. cbn [ta tb tc]. replace (Rabs ((1 + 0 * TAU) / 6)) with (/6)%R; [field|]. rewrite Rabs_right by lra. lra. }
  assert (Sg : flt Bnum (numeric_value Bnum v) (fZ Bnum 0) = neg_tau v).
  { apply (float_neg_tau _ _ _ Gv); [lia|lia|]. destruct Cl as [Cl|[Cl|Cl]].
    - left. assert (M * M * M <= 125) by nia. lia.
    - right. left. rewrite Cl, Rabs_R0, Rmult_0_r in Av. destruct (Req_dec (val TAU v) 0) as [Z0|Z0]; [exact Z0|]. exfalso. exact (Rabs_no_R0 _ Z0 Av).
    - right. right. rewrite Av. assert (Q1 : (1 <= IZR (q * q * q))%R) by (apply IZR_le; lia). assert (M0 : (0 <= IZR (M * M * M))%R) by (apply IZR_le; lia).
      rewrite (mult_IZR 93312). pose proof (Rle_abs (pvol t)) as Ab.
      apply Rle_trans with (6 * (IZR (M * M * M) / (10000000000 * IZR (q * q * q))))%R; [|lra].
      replace (6 * (IZR (M * M * M) / (10000000000 * IZR (q * q * q))))%R with (6 / 10000000000 * (IZR (M * M * M) / IZR (q * q * q)))%R by (field; lra).
      replace (93312 * IZR (M * M * M) / (500000000000000 * IZR (q * q * q)))%R with (93312 / 500000000000000 * (IZR (M * M * M) / IZR (q * q * q)))%R by (field; lra).
      apply Rmult_le_compat_r; [|lra]. apply Rmult_le_pos; [exact M0|]. left. apply Rinv_0_lt_compat. lra. }
  rewrite Sg. unfold vfin in *.
  assert (F : forall z, z = 1 \/ z = -1 -> same (on_grid (q * q * q * 6) (Z.abs z * (93312 * (M * M * M)))) (m_mul v (T z 0 6)) (mul v (T z 0 6))).
  { intros z Hz. apply (mo_rat_r _ _ _ _ _ _ _ ico_machine); [lia|exact Gv|unfold cap; lia|unfold cap; lia|unfold cap; lia]. }
  destruct (neg_tau v).
  - destruct (F (-1)) as (r' & E1 & E2 & G1); [auto|]. rewrite Er in E2. injection E2 as <-. exists r. split; [exact E1|]. split; [reflexivity|]. split; [|split; assumption].
    rewrite Z.mul_comm in G1 at 1. change (Z.abs (-1)) with 1 in G1. rewrite Z.mul_1_l in G1. replace (6 * (q * q * q)) with (6 * (q * q * q)) by ring. exact G1.
  - destruct (F 1) as (r' & E1 & E2 & G1); [auto|]. rewrite Er in E2. injection E2 as <-. exists r. split; [exact E1|]. split; [reflexivity|]. split; [|split; assumption].
    change (Z.abs 1) with 1 in G1. rewrite Z.mul_1_l in G1. replace (6 * (q * q * q)) with (q * q * q * 6) by ring. exact G1.
Qed.

(** ** Sums of volumes *)
Definition clean (q M : Z) (t : vecs) : Prop := length t = 4%nat /\ grids 6 q M t /\ clear_vol q M t.
Lemma sum_volumes_grid q M A a o : Forall (clean q M) o -> on_grid (6 * (q * q * q)) A a -> 0 <= M -> 0 < q <= 250 -> M * q <= 3000 -> (A + Z.of_nat (length o) * (93312 * (M * M * M))) * (6 * (q * q * q)) <= cap ->
  same (on_grid (6 * (q * q * q)) (A + Z.of_nat (length o) * (93312 * (M * M * M)))) (m_sum_volumes a o) (sum_volumes a o).
Proof.
  intros F Ga PM Hq H. assert (Q3 : 1 <= q * q * q <= 15625000) by nia. assert (M3 : 0 <= M * M * M) by nia.
  assert (Q6 : 6 * (q * q * q) * (6 * (q * q * q)) <= 93750000 * 93750000) by (apply Z.mul_le_mono_nonneg; lia).
  unfold m_sum_volumes, sum_volumes. revert A a Ga. induction F as [|t o [L [G Cl]] _ IH]; intros A a Ga HA; cbn [foldM length] in *.
  - apply same_ret. eapply grid_weaken; [exact Ga|]. lia.
  - rewrite Nat2Z.inj_succ in *. replace (A + Z.succ (Z.of_nat (length o)) * (93312 * (M * M * M))) with (A + 93312 * (M * M * M) + Z.of_nat (length o) * (93312 * (M * M * M))) in * by (unfold Z.succ; ring).
    assert (0 <= Z.of_nat (length o) * (93312 * (M * M * M))) by (apply Z.mul_nonneg_nonneg; lia).
    eapply same_bind; [|intros b Gb; apply IH; [exact Gb|exact HA]].
    eapply same_bind; [apply (volume_grid q M t L G PM); [lia|exact H|exact Cl]|]. intros v (Gv & _). apply (mo_add _ _ _ _ _ _ _ ico_machine); [exact Ga|exact Gv|unfold cap; lia|].
    eapply Z.le_trans; [|exact HA]. apply Z.mul_le_mono_nonneg_r; lia.
Qed.
Lemma obj_volume_grid q M o : Forall (clean q M) o -> 0 <= M -> 0 < q <= 250 -> M * q <= 3000 -> Z.of_nat (length o) * (M * q * (M * q) * (M * q)) <= 16000000000 ->
  exists v, m_obj_volume_6d (A4 o) = Ok (Some v) /\ obj_volume_6d (A4 o) = Ok (Some v) /\ canon v /\ val TAU v = Rsum (map pvol o).
Proof.
  intros F PM Hq H Hn. assert (T : tets o). { eapply Forall_impl; [|exact F]. intros t (L & G & _). split; [exact L|eapply tets_of; eassumption]. }
  destruct (wp_elim _ _ (obj_volume_spec o T)) as (r & Er & v & -> & Cv & Vv). exists v. split; [|split; [exact Er|split; assumption]].
  cbn [m_obj_volume_6d obj_volume_6d] in *. assert (Q3 : 1 <= q * q * q) by nia.
  destruct (sum_volumes_grid q M 0 t0 o F) as (r & E1 & E2 & _); try assumption.
  - apply grid_t0; lia.
  - rewrite Z.add_0_l. replace (Z.of_nat (length o) * (93312 * (M * M * M)) * (6 * (q * q * q))) with (559872 * (Z.of_nat (length o) * (M * q * (M * q) * (M * q)))) by ring. unfold cap. lia.
  - rewrite E2 in Er. rewrite E1. exact Er.
Qed.
