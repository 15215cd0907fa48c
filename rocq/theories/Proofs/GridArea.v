(** Areas of dode2 computed on the machine. *)
From Coq Require Import Reals List ZArith Lia Lra Bool Psatz.
From Verif Require Import Base.Res Model.Tau Model.Arr Model.DodeScalar Model.Vectors Model.DodeMath1 Model.Sign Model.Num Model.DodeNumeric
  Model.DodeArea Model.Machine Model.MachineVec
  Spec.Value Spec.RVec Spec.Shape Spec.Geometry Spec.IcoSpec Spec.DodeSpec Spec.Grid
  Proofs.ResLemmas Proofs.ValueLemmas Proofs.ScalarLemmas Proofs.Irrational Proofs.MachineLemmas Proofs.SignLemmas Proofs.DodeProj Proofs.DodeAreaLemmas Proofs.GridLemmas Proofs.GridSign.
Import ListNotations.
Local Open Scope Z_scope.

(** ** Projection, on the denominator 4q *)
Lemma dcoef_unit q B : 4 * q <= cap -> 8 * B <= cap -> coef (mmul := md_mul) (mul := dmul) q (4 * q) B 4 (T 1 0 1).
Proof.
  intros Hq HB x G. eapply same_weaken; [apply (mo_rat_l _ _ _ _ _ _ _ dode_machine q B 1 1 x); [lia|exact G|lia|change (Z.abs 1) with 1; lia|unfold cap; cbn; lia]|].
  intros r Gr. replace (4 * q) with (q * 1 * 4) by ring. replace (4 * B) with (Z.abs 1 * B * 4) by (change (Z.abs 1) with 1; ring). apply grid_scale; [lia|exact Gr].
Qed.
Lemma dcoef_zero q B : 4 * q <= cap -> coef (mmul := md_mul) (mul := dmul) q (4 * q) B 0 (T 0 0 1).
Proof.
  intros Hq x G. eapply same_weaken; [apply (mo_rat_l _ _ _ _ _ _ _ dode_machine q B 0 1 x); [lia|exact G|lia|cbn; unfold cap; lia|unfold cap; cbn; lia]|].
  intros r Gr. replace (4 * q) with (q * 1 * 4) by ring. change (0 * B) with (Z.abs 0 * B * 4). apply grid_scale; [lia|exact Gr].
Qed.
Lemma dcoef_half q B : 8 * q <= cap -> 8 * B <= cap -> coef (mmul := md_mul) (mul := dmul) q (4 * q) B 2 (T (-1) 0 2).
Proof.
  intros Hq HB x G. eapply same_weaken; [apply (mo_rat_l _ _ _ _ _ _ _ dode_machine q B (-1) 2 x); [lia|exact G|lia|change (Z.abs (-1)) with 1; lia|unfold cap; cbn; lia]|].
  intros r Gr. replace (4 * q) with (q * 2 * 2) by ring. replace (2 * B) with (Z.abs (-1) * B * 2) by (change (Z.abs (-1)) with 1; ring). apply grid_scale; [lia|exact Gr].
Qed.
Lemma dcoef_sin q B : 4 * q <= cap -> 8 * B <= cap -> coef (mmul := md_mul) (mul := dmul) q (4 * q) B 4 (T 0 (-1) 1).
Proof.
  intros Hq HB x G. pose proof (proj1 G) as Pq. destruct (grid_val SIN _ _ _ G) as (a & b & Ha & Hb & E).
  assert (Gz : on_grid 1 1 (T 0 (-1) 1)) by (split; [lia|]; exists 1; cbn [ta tb tc]; lia).
  apply (same_intro SIN (4 * q) _ (- 3 * b) (- 4 * a)); [exact SIN_irrational|lia|apply (md_mul_grid 1 q 1 B _ _ Gz G); unfold cap in *; lia| |lia|lia].
  eapply wp_mono; [apply (ao_mul _ _ _ dode_arith); eapply grid_wf; eassumption|]. intros r [Cr Vr]. split; [exact Cr|]. rewrite Vr, E. unfold val. cbn [ta tb tc]. rewrite !mult_IZR.
  assert (IZR q <> 0)%R by (apply not_0_IZR; lia). transitivity (- (IZR a * SIN + IZR b * (SIN * SIN)) / IZR q)%R; [field; auto|]. rewrite SIN_sq. field. auto.
Qed.
Ltac dcf := lazymatch goal with |- coef _ _ _ 4 (T 0 _ _) => simple apply dcoef_sin; assumption | |- coef _ _ _ 4 _ => simple apply dcoef_unit; assumption | |- coef _ _ _ 2 _ => simple apply dcoef_half; assumption | |- coef _ _ _ 0 _ => simple apply dcoef_zero; assumption end.
Lemma dprojection3_grid q B v : gridv 6 q B v -> 0 <= B -> 0 < q -> 4 * q * (4 * q) <= cap -> 10 * B * (4 * q) <= cap -> same (gridv 3 (4 * q) (10 * B)) (md_projection3 v) (dprojection3 v).
Proof.
  intros G PB Pq Hq HB. assert (L8 : 8 * q <= cap) by nia. assert (L4 : 4 * q <= cap) by lia. assert (LB : 8 * B <= cap) by nia. unfold md_projection3, dprojection3, md_mtrixcal, dmtrixcal, M0, M1, M4, M6.
  assert (W : forall s x, 0 <= s <= 10 -> on_grid (4 * q) (s * B) x -> on_grid (4 * q) (10 * B) x) by (intros s x Hs Gx; eapply grid_weaken; [exact Gx|nia]).
  assert (LC : forall s, 0 <= s <= 10 -> s * B * (4 * q) <= cap) by (intros s Hs; eapply Z.le_trans; [|exact HB]; apply Z.mul_le_mono_nonneg_r; nia).
  eapply same_bind; [simple apply (mtrixcal_grid dode_machine q (4 * q) B) with (s1 := 4) (s2 := 4) (s3 := 0) (s4 := 2) (s5 := 0) (s6 := 0); [exact G|lia|lia|lia|lia|lia|lia|lia|lia|dcf|dcf|dcf|dcf|dcf|dcf|exact Hq|apply LC; lia]|].
  intros x Gx. eapply same_bind; [simple apply (mtrixcal_grid dode_machine q (4 * q) B) with (s1 := 2) (s2 := 0) (s3 := 4) (s4 := 4) (s5 := 0) (s6 := 0); [exact G|lia|lia|lia|lia|lia|lia|lia|lia|dcf|dcf|dcf|dcf|dcf|dcf|exact Hq|apply LC; lia]|].
  intros y Gy. eapply same_bind; [simple apply (mtrixcal_grid dode_machine q (4 * q) B) with (s1 := 0) (s2 := 0) (s3 := 0) (s4 := 0) (s5 := 0) (s6 := 4); [exact G|lia|lia|lia|lia|lia|lia|lia|lia|dcf|dcf|dcf|dcf|dcf|dcf|exact Hq|apply LC; lia]|].
  intros z Gz. apply same_ret. split; [reflexivity|]. apply Forall_cons; [eapply W; [|exact Gx]; lia|]. apply Forall_cons; [eapply W; [|exact Gy]; lia|]. apply Forall_cons; [eapply W; [|exact Gz]; lia|]. apply Forall_nil.
Qed.

(** ** The area of a triangle *)
Definition adet_ (p3 : vec -> res vec) (subv : vec -> vec -> res vec) (outer : vec -> vec -> res vec) (t : vecs) : res tau :=
  bind (get t 0) (fun q0 => bind (p3 q0) (fun v0 => bind (get t 1) (fun q1 => bind (p3 q1) (fun v1 => bind (get t 2) (fun q2 => bind (p3 q2) (fun v2 =>
  bind (subv v1 v0) (fun d1 => bind (subv v2 v0) (fun d2 => bind (outer d1 d2) (fun v => get v 2))))))))).
Definition afin (neg : bool) (mmul : tau -> tau -> res tau) (v : tau) : res tau := if neg then mmul v (T (-1) 0 2) else mmul v (T 1 0 2).
Definition fneg_ (z : tau) : bool := flt Bnum (fadd Bnum (fZ Bnum (ta z)) (fmul Bnum (fZ Bnum (tb z)) (fsin Bnum))) (fZ Bnum 0).
Lemma area_split t : triangle_area_6d_3 t = bind (adet_ dprojection3 dsub_vectors douter_product t) (fun v => afin (neg_sqrt 3 (2 * ta v) (tb v)) dmul v).
Proof.
  unfold triangle_area_6d_3, adet_, triangle_area, afin. rewrite !bind_assoc.
  repeat (apply bind_ext; intros ?; rewrite ?bind_assoc). cbn [get nth_error bind]. repeat (apply bind_ext; intros ?; rewrite ?bind_assoc). reflexivity.
Qed.
Lemma m_area_split t : md_triangle_area_6d_3 t = bind (adet_ md_projection3 md_sub_vectors md_outer_product t) (fun v => afin (fneg_ v) md_mul v).
Proof.
  unfold md_triangle_area_6d_3, adet_, md_triangle_area, afin, fneg_. rewrite !bind_assoc.
  repeat (apply bind_ext; intros ?; rewrite ?bind_assoc). cbn [get nth_error bind]. repeat (apply bind_ext; intros ?; rewrite ?bind_assoc). reflexivity.
Qed.
Lemma adet_grid q M t : length t = 3%nat -> grids 6 q M t -> 0 <= M -> 0 < q <= 1000 -> M * q <= 100000 ->
  same (on_grid (64 * (q * q)) (6400 * (M * M))) (adet_ md_projection3 md_sub_vectors md_outer_product t) (adet_ dprojection3 dsub_vectors douter_product t).
Proof.
  intros L G PM [Pq Lq] H. destruct t as [|t0 [|t1 [|t2 [|? ?]]]]; try discriminate.
  inversion G as [|? ? G0 Gt]; subst. inversion Gt as [|? ? G1 Gt1]; subst. inversion Gt1 as [|? ? G2 _]; subst. clear G Gt Gt1.
  assert (LM : M <= 100000) by nia. assert (Q2 : 1 <= q * q <= 1000000) by nia.
  assert (M2 : 0 <= M * M * (q * q) <= 10000000000) by (replace (M * M * (q * q)) with (M * q * (M * q)) by ring; assert (0 <= M * q) by nia; nia). assert (M4 : 0 <= M * M <= M * M * (q * q)) by nia.
  assert (Q4 : q * q * (q * q) <= 1000000 * 1000000) by (apply Z.mul_le_mono_nonneg; lia).
  unfold adet_. cbn [get nth_error bind].
  assert (P : forall v, gridv 6 q M v -> same (gridv 3 (4 * q) (10 * M)) (md_projection3 v) (dprojection3 v)) by (intros v Gv; apply dprojection3_grid; try assumption; unfold cap; lia).
  eapply same_bind; [apply P; eassumption|]. intros v0 V0. eapply same_bind; [apply P; eassumption|]. intros v1 V1. eapply same_bind; [apply P; eassumption|]. intros v2 V2.
  assert (S : forall u, gridv 3 (4 * q) (10 * M) u -> same (gridv 3 (4 * q) (20 * M)) (md_sub_vectors u v0) (dsub_vectors u v0)).
  { intros u Gu. replace (20 * M) with (10 * M + 10 * M) by ring. apply (sub_vectors_grid dode_machine); try assumption; unfold cap; lia. }
  eapply same_bind; [apply S; eassumption|]. intros d1 D1. eapply same_bind; [apply S; eassumption|]. intros d2 D2.
  eapply same_bind.
  { apply (outer_grid dode_machine (4 * q) (4 * q) (20 * M) (20 * M)); [exact D1|exact D2|lia|lia| | | | |]; unfold cap.
    - replace (4 * (4 * (4 * q * (4 * q)))) with (256 * (q * q)) by ring. lia.
    - replace (4 * (4 * q * (4 * q)) * (4 * (4 * q * (4 * q)))) with (4096 * (q * q * (q * q))) by ring. lia.
    - replace (8 * (8 * (20 * M * (20 * M)))) with (25600 * (M * M)) by ring. lia.
    - lia.
    - replace (2 * (8 * (20 * M * (20 * M))) * (4 * (4 * q * (4 * q)))) with (409600 * (M * M * (q * q))) by ring. lia. }
  intros c Gc. destruct (gridv_nth _ _ _ _ 2 Gc) as (z & -> & Gz); [lia|]. apply same_ret.
  replace (64 * (q * q)) with (4 * (4 * q * (4 * q))) by ring. replace (6400 * (M * M)) with (2 * (8 * (20 * M * (20 * M)))) by ring. exact Gz.
Qed.
Lemma tris_of q M t : grids 6 q M t -> goods 6 t.
Proof. intros G. eapply Forall_impl; [|exact G]. intros v [L F]. split; [|exact L]. eapply Forall_impl; [|exact F]. intros x Gx. eapply grid_wf; eassumption. Qed.
Lemma area_grid q M t : length t = 3%nat -> grids 6 q M t -> 0 <= M -> 0 < q <= 1000 -> M * q <= 100000 -> clear_area q M t ->
  same (fun v => on_grid (128 * (q * q)) (6400 * (M * M)) v /\ canon v /\ val SIN v = parea t) (md_triangle_area_6d_3 t) (triangle_area_6d_3 t).
Proof.
  intros L G PM Hq H Cl. pose proof (tris_of q M t G) as Gt. pose proof (triarea6_spec t L Gt) as V. destruct (wp_elim _ _ V) as (r & Er & Cr & Vr).
  destruct (adet_grid q M t L G PM Hq H) as (v & Em & Ee & Gv).
  assert (LM : M <= 100000) by nia. assert (Q2 : 1 <= q * q <= 1000000) by nia. assert (M2 : 0 <= M * M <= 10000000000) by nia.
  rewrite m_area_split, Em, Er. cbn [bind]. rewrite area_split, Ee in Er. cbn [bind] in Er.
  pose proof (grid_wf _ _ _ Gv) as Wv. assert (K1 : wf (T (-1) 0 2)) by (unfold wf; cbn; lia). assert (K2 : wf (T 1 0 2)) by (unfold wf; cbn; lia).
  assert (Av : Rabs (val SIN v) = (2 * Rabs (parea t))%R).
  { rewrite <- Vr. unfold afin in Er. destruct (neg_sqrt 3 (2 * ta v) (tb v)).
    - destruct (wp_elim _ _ (ao_mul _ _ _ dode_arith v _ Wv K1)) as (r' & Er' & _ & Vr'). rewrite Er in Er'. injection Er' as <-. rewrite Vr', Rabs_mult. unfold val at 3. cbn [ta tb tc]. replace (Rabs ((-1 + 0 * SIN) / 2)) with (/2)%R; [field|]. rewrite Rabs_left by lra. lra.
    - destruct (wp_elim _ _ (ao_mul _ _ _ dode_arith v _ Wv K2)) as (r' & Er' & _ & Vr'). rewrite Er in Er'. injection Er' as <-. rewrite Vr', Rabs_mult. unfold val at 3. cbn [ta tb tc]. replace (Rabs ((1 + 0 * SIN) / 2)) with (/2)%R; [field|]. rewrite Rabs_right by lra. lra. }
  assert (Sg : fneg_ v = neg_sqrt 3 (2 * ta v) (tb v)).
  { apply (float_neg_sin _ _ _ Gv); [lia|]. destruct Cl as [Cl|[Cl|Cl]].
    - left. assert (M * M <= 1296) by nia. lia.
    - right. left. rewrite Cl, Rabs_R0, Rmult_0_r in Av. destruct (Req_dec (val SIN v) 0) as [Z0|Z0]; [exact Z0|]. exfalso. exact (Rabs_no_R0 _ Z0 Av).
    - right. right. rewrite Av. assert (Q1 : (1 <= IZR (q * q))%R) by (apply IZR_le; lia). assert (M0 : (0 <= IZR (M * M))%R) by (apply IZR_le; lia).
      rewrite (mult_IZR 6400), (mult_IZR 64). pose proof (Rle_abs (parea t)) as Ab.
      apply Rle_trans with (2 * (IZR (M * M) / (1000000000000 * IZR (q * q))))%R; [|lra].
      replace (2 * (IZR (M * M) / (1000000000000 * IZR (q * q))))%R with (2 / 1000000000000 * (IZR (M * M) / IZR (q * q)))%R by (field; lra).
      replace (6400 * IZR (M * M) / (500000000000000 * (64 * IZR (q * q))))%R with (6400 / 32000000000000000 * (IZR (M * M) / IZR (q * q)))%R by (field; lra).
      apply Rmult_le_compat_r; [|lra]. apply Rmult_le_pos; [exact M0|]. left. apply Rinv_0_lt_compat. lra. }
  rewrite Sg. unfold afin in *.
  assert (F : forall z, z = 1 \/ z = -1 -> same (on_grid (64 * (q * q) * 2) (Z.abs z * (6400 * (M * M)))) (md_mul v (T z 0 2)) (dmul v (T z 0 2))).
  { intros z Hz. apply (mo_rat_r _ _ _ _ _ _ _ dode_machine); [lia|exact Gv|unfold cap; lia|unfold cap; lia|unfold cap; lia]. }
  replace (128 * (q * q)) with (64 * (q * q) * 2) by ring.
  destruct (neg_sqrt 3 (2 * ta v) (tb v)).
  - destruct (F (-1)) as (r' & E1 & E2 & G1); [auto|]. rewrite Er in E2. injection E2 as <-. exists r. split; [exact E1|]. split; [reflexivity|]. split; [|split; assumption].
    change (Z.abs (-1)) with 1 in G1. rewrite Z.mul_1_l in G1. exact G1.
  - destruct (F 1) as (r' & E1 & E2 & G1); [auto|]. rewrite Er in E2. injection E2 as <-. exists r. split; [exact E1|]. split; [reflexivity|]. split; [|split; assumption].
    change (Z.abs 1) with 1 in G1. rewrite Z.mul_1_l in G1. exact G1.
Qed.

(** ** Sums of areas *)
Definition dclean (q M : Z) (t : vecs) : Prop := length t = 3%nat /\ grids 6 q M t /\ clear_area q M t.
Lemma sum_areas_grid q M A a o : Forall (dclean q M) o -> on_grid (128 * (q * q)) A a -> 0 <= M -> 0 < q <= 800 -> M * q <= 100000 -> (A + Z.of_nat (length o) * (6400 * (M * M))) * (128 * (q * q)) <= cap ->
  same (on_grid (128 * (q * q)) (A + Z.of_nat (length o) * (6400 * (M * M)))) (md_sum_areas a o) (sum_areas a o).
Proof.
  intros F Ga PM Hq H. assert (Q3 : 1 <= q * q <= 640000) by nia. assert (M3 : 0 <= M * M) by nia.
  assert (Q6 : 128 * (q * q) * (128 * (q * q)) <= 81920000 * 81920000) by (apply Z.mul_le_mono_nonneg; lia).
  unfold md_sum_areas, sum_areas. revert A a Ga. induction F as [|t o [L [G Cl]] _ IH]; intros A a Ga HA; cbn [foldM length] in *.
  - apply same_ret. eapply grid_weaken; [exact Ga|]. lia.
  - rewrite Nat2Z.inj_succ in *. replace (A + Z.succ (Z.of_nat (length o)) * (6400 * (M * M))) with (A + 6400 * (M * M) + Z.of_nat (length o) * (6400 * (M * M))) in * by (unfold Z.succ; ring).
    assert (0 <= Z.of_nat (length o) * (6400 * (M * M))) by (apply Z.mul_nonneg_nonneg; lia).
    eapply same_bind; [|intros b Gb; apply IH; [exact Gb|exact HA]].
    eapply same_bind; [apply (area_grid q M t L G PM); [lia|exact H|exact Cl]|]. intros v (Gv & _). apply (mo_add _ _ _ _ _ _ _ dode_machine); [exact Ga|exact Gv|unfold cap; lia|].
    eapply Z.le_trans; [|exact HA]. apply Z.mul_le_mono_nonneg_r; lia.
Qed.
Lemma obj_area_grid q M o : Forall (dclean q M) o -> 0 <= M -> 0 < q <= 800 -> M * q <= 100000 -> Z.of_nat (length o) * (M * q * (M * q)) <= 10000000000 ->
  exists v, md_obj_area_6d (A4 o) = Ok (Some v) /\ obj_area_6d (A4 o) = Ok (Some v) /\ canon v /\ val SIN v = Rsum (map parea o).
Proof.
  intros F PM Hq H Hn. assert (T : tris o). { eapply Forall_impl; [|exact F]. intros t (L & G & _). split; [exact L|eapply tris_of; eassumption]. }
  destruct (wp_elim _ _ (obj_area_spec o T)) as (r & Er & v & -> & Cv & Vv). exists v. split; [|split; [exact Er|split; assumption]].
  cbn [md_obj_area_6d obj_area_6d] in *. assert (Q3 : 1 <= q * q) by nia.
  destruct (sum_areas_grid q M 0 t0 o F) as (r & E1 & E2 & _); try assumption.
  - apply grid_t0; lia.
  - rewrite Z.add_0_l. replace (Z.of_nat (length o) * (6400 * (M * M)) * (128 * (q * q))) with (819200 * (Z.of_nat (length o) * (M * q * (M * q)))) by ring. unfold cap. lia.
  - rewrite E2 in Er. rewrite E1. exact Er.
Qed.
