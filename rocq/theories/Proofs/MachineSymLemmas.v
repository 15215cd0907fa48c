(** Symmetry operations with float64 matrices are those with integer matrices while no
    intermediate value exceeds 2^53. *)
From Coq Require Import Reals List ZArith Bool Lia Lra Psatz.
From Flocq Require Import Core IEEE754.BinarySingleNaN IEEE754.Binary IEEE754.Bits.
From Verif Require Import Base.Res Model.Tau Model.Arr Model.IcoScalar Model.DodeScalar Model.Machine Model.Vectors Model.MachineVec Model.MachineSym
  Spec.Value Spec.IcoSpec Spec.Grid Proofs.ResLemmas Proofs.ValueLemmas Proofs.MachineLemmas Proofs.GridLemmas.
Import ListNotations.
Local Open Scope Z_scope.
Local Notation B2R64 := (B2R 53 1024).
Local Notation fin := (is_finite 53 1024).

Definition ex (x : binary64) (z : Z) : Prop := fin x = true /\ B2R64 x = IZR z.
Lemma f64_ex z : small z -> ex (f64 z) z.
Proof. intros H. destruct (f64_exact z H). split; assumption. Qed.
Lemma ffadd_ex x y a b : ex x a -> ex y b -> small (a + b) -> ex (ffadd x y) (a + b).
Proof.
  intros [Fx Vx] [Fy Vy] H. unfold ffadd, b64_plus, ex.
  match goal with |- context [Bplus 53 1024 ?p ?q ?n ?m _ _] => pose proof (Bplus_correct 53 1024 p q n m x y Fx Fy) as C end.
  rewrite Vx, Vy, <- plus_IZR in C. rewrite round_generic in C; [|apply valid_rnd_N|apply int_format; exact H].
  rewrite Rlt_bool_true in C by (apply small_lt_emax; exact H). tauto.
Qed.
Lemma ffmul_ex x y a b : ex x a -> ex y b -> small (a * b) -> ex (ffmul x y) (a * b).
Proof.
  intros [Fx Vx] [Fy Vy] H. unfold ffmul, b64_mult, ex.
  match goal with |- context [Bmult 53 1024 ?p ?q ?n ?m _ _] => pose proof (Bmult_correct 53 1024 p q n m x y) as C end.
  rewrite Vx, Vy, <- mult_IZR in C. rewrite round_generic in C; [|apply valid_rnd_N|apply int_format; exact H].
  rewrite Rlt_bool_true in C by (apply small_lt_emax; exact H). rewrite Fx, Fy in C. cbn [andb] in C. tauto.
Qed.
Lemma fcast_ex x z : ex x z -> small z -> fcast x = z.
Proof.
  intros [Fx Vx] H. unfold fcast. rewrite (fint_exact x z Fx Vx). unfold small in H.
  replace (- 2^63 <=? z) with true by (symmetry; apply Z.leb_le; lia). replace (z <? 2^63) with true by (symmetry; apply Z.ltb_lt; lia). reflexivity.
Qed.
Lemma fdiv_ex x c g : ex x c -> g <> 0 -> (g | c) -> small c -> small g -> ex (fdiv x (f64 g)) (c / g).
Proof.
  intros [Fx Vx] Hg Hd Hc Hgb. destruct (f64_exact g Hgb) as [Vg Fg]. assert (Hg' : IZR g <> 0%R) by (apply not_0_IZR; exact Hg). unfold fdiv, b64_div, ex.
  match goal with |- context [Bdiv 53 1024 ?a ?b ?n ?m _ _] => pose proof (Bdiv_correct 53 1024 a b n m x (f64 g)) as C end.
  rewrite Vg in C. specialize (C Hg'). rewrite Vx in C.
  assert (E : (IZR c / IZR g = IZR (c / g))%R). { destruct Hd as [k ->]. rewrite Z.div_mul by exact Hg. rewrite mult_IZR. field. exact Hg'. }
  rewrite E in C. pose proof (div_small c g Hg Hc) as Hq. rewrite round_generic in C; [|apply valid_rnd_N|apply int_format; exact Hq].
  rewrite Rlt_bool_true in C by (apply small_lt_emax; exact Hq). rewrite Fx in C. tauto.
Qed.
Lemma fdiv_00 x : ex x 0 -> exists s p H, fdiv x (f64 0) = B754_nan 53 1024 s p H.
Proof.
  intros [Fx Vx]. destruct x as [s|s|s p e|s m e H]; try discriminate Fx; [destruct s; eexists _, _, _; reflexivity|].
  exfalso. cbn in Vx. apply eq_0_F2R in Vx. destruct s; discriminate Vx.
Qed.
Lemma m_reduce_f_ex x1 x2 x3 c1 c2 c3 : ex x1 c1 -> ex x2 c2 -> ex x3 c3 -> small c1 -> small c2 -> small c3 -> m_reduce_f x1 x2 x3 = reduce c1 c2 c3.
Proof.
  intros X1 X2 X3 H1 H2 H3. unfold m_reduce_f, reduce. rewrite (fcast_ex _ _ X1 H1), (fcast_ex _ _ X2 H2), (fcast_ex _ _ X3 H3), (wgcd3 c1 c2 c3 H1 H2 H3). cbv zeta.
  pose proof (gcd3_div c1 c2 c3) as (D1 & D2 & D3).
  assert (Hg : 0 <= Z.gcd (Z.gcd c1 c2) c3 <= 2^53). { apply gcd_bound; [|exact H3]. pose proof (gcd_bound c1 c2 _ H1 H2). lia. }
  destruct (Z.eqb_spec (Z.gcd (Z.gcd c1 c2) c3) 0) as [E|E].
  - rewrite E in *. apply Z.divide_0_l in D1, D2, D3. subst. destruct (fdiv_00 x1 X1) as (s1 & p1 & e1 & ->), (fdiv_00 x3 X3) as (s3 & p3 & e3 & ->). reflexivity.
  - set (g := Z.gcd (Z.gcd c1 c2) c3) in *. assert (Hg' : small g) by (unfold small; lia).
    destruct (fdiv_ex x1 c1 g X1 E D1 H1 Hg') as [F1 V1], (fdiv_ex x2 c2 g X2 E D2 H2 Hg') as [F2 V2], (fdiv_ex x3 c3 g X3 E D3 H3 Hg') as [F3 V3].
    rewrite (fltz_exact _ _ F3 V3). destruct (c3 / g <? 0).
    + destruct (fneg_exact _ _ F1 V1) as [F1' V1'], (fneg_exact _ _ F2 V2) as [F2' V2'], (fneg_exact _ _ F3 V3) as [F3' V3'].
      rewrite (fint_exact _ _ F1' V1'), (fint_exact _ _ F2' V2'), (fint_exact _ _ F3' V3'). reflexivity.
    + rewrite (fint_exact _ _ F1 V1), (fint_exact _ _ F2 V2), (fint_exact _ _ F3 V3). reflexivity.
Qed.
Lemma m_reduce_fd_ex x1 x2 x3 c1 c2 c3 : ex x1 c1 -> ex x2 c2 -> ex x3 c3 -> small c1 -> small c2 -> small c3 -> m_reduce_fd x1 x2 x3 = reduce c1 c2 c3.
Proof.
  intros X1 X2 X3 H1 H2 H3. unfold m_reduce_fd, reduce. rewrite (fcast_ex _ _ X1 H1), (fcast_ex _ _ X2 H2), (fcast_ex _ _ X3 H3), (wgcd3 c1 c2 c3 H1 H2 H3). cbv zeta.
  pose proof (gcd3_div c1 c2 c3) as (D1 & D2 & D3).
  assert (Hg : 0 <= Z.gcd (Z.gcd c1 c2) c3 <= 2^53). { apply gcd_bound; [|exact H3]. pose proof (gcd_bound c1 c2 _ H1 H2). lia. }
  destruct (Z.eqb_spec (Z.gcd (Z.gcd c1 c2) c3) 0) as [E|E].
  - rewrite E in *. apply Z.divide_0_l in D1, D2, D3. subst. destruct (fdiv_00 x1 X1) as (s1 & p1 & e1 & ->). reflexivity.
  - set (g := Z.gcd (Z.gcd c1 c2) c3) in *. assert (Hg' : small g) by (unfold small; lia).
    destruct (fdiv_ex x1 c1 g X1 E D1 H1 Hg') as [F1 V1], (fdiv_ex x2 c2 g X2 E D2 H2 Hg') as [F2 V2], (fdiv_ex x3 c3 g X3 E D3 H3 Hg') as [F3 V3].
    rewrite (fint_exact _ _ F1 V1), (fint_exact _ _ F2 V2), (fint_exact _ _ F3 V3). cbn [bind]. destruct (c3 / g <? 0); reflexivity.
Qed.
(** An integer entry of a float64 matrix times a number. *)
Lemma m_fmul_int x y : small x -> small (ta y) -> small (tb y) -> small (tc y) -> small (x * ta y) -> small (x * tb y) -> m_fmul (T x 0 1) y = mul (T x 0 1) y.
Proof.
  intros Hx Ha Hb Hc Hxa Hxb. unfold m_fmul, mul. destruct y as [a b c]. cbn [ta tb tc] in *. cbv zeta.
  apply f64_ex in Hx. pose proof (f64_ex 0 ltac:(unfold small; lia)) as E0. pose proof (f64_ex 1 ltac:(unfold small; lia)) as E1. pose proof (f64_ex a Ha) as Ea. pose proof (f64_ex b Hb) as Eb. pose proof (f64_ex c Hc) as Ec.
  apply m_reduce_f_ex.
  - apply ffadd_ex; [apply ffmul_ex; assumption|apply ffmul_ex; [assumption..|]|]; unfold small in *; rewrite ?Z.mul_0_l, ?Z.add_0_r; try assumption; lia.
  - apply ffadd_ex; [apply ffadd_ex; [apply ffmul_ex; assumption|apply ffmul_ex; [assumption..|]|]|apply ffmul_ex; [assumption..|]|]; unfold small in *; rewrite ?Z.mul_0_l, ?Z.add_0_r; try assumption; lia.
  - apply ffmul_ex; [assumption..|]. unfold small in *. lia.
  - unfold small in *. rewrite Z.mul_0_l, Z.add_0_r. exact Hxa.
  - unfold small in *. rewrite !Z.mul_0_l, !Z.add_0_r. exact Hxb.
  - unfold small in *. lia.
Qed.
Lemma md_fmul_int x y : small (4 * x) -> small (ta y) -> small (tb y) -> small (4 * tc y) -> small (4 * x * ta y) -> small (4 * (x * tb y)) -> md_fmul (T x 0 1) y = dmul (T x 0 1) y.
Proof.
  intros Hx Ha Hb Hc Hxa Hxb. unfold md_fmul, dmul. destruct y as [a b c]. cbn [ta tb tc] in *. cbv zeta.
  assert (Ex : ex (f64 x) x) by (apply f64_ex; unfold small in *; lia). assert (Ec : ex (f64 c) c) by (apply f64_ex; unfold small in *; lia).
  pose proof (f64_ex 0 ltac:(unfold small; lia)) as E0. pose proof (f64_ex 1 ltac:(unfold small; lia)) as E1. pose proof (f64_ex 3 ltac:(unfold small; lia)) as E3. pose proof (f64_ex 4 ltac:(unfold small; lia)) as E4.
  pose proof (f64_ex a Ha) as Ea. pose proof (f64_ex b Hb) as Eb.
  apply m_reduce_fd_ex.
  - apply ffadd_ex; [apply ffmul_ex; [apply ffmul_ex|..]|apply ffmul_ex; [apply ffmul_ex|..]|]; try assumption; unfold small in *; rewrite ?Z.mul_0_r, ?Z.mul_0_l, ?Z.add_0_r; try assumption; lia.
  - apply ffmul_ex; [assumption|apply ffadd_ex; [apply ffmul_ex|apply ffmul_ex|]|]; try assumption; unfold small in *; rewrite ?Z.mul_0_l, ?Z.add_0_r; try assumption; lia.
  - apply ffmul_ex; [apply ffmul_ex|..]; try assumption; unfold small in *; lia.
  - unfold small in *. rewrite Z.mul_0_r, Z.mul_0_l, Z.add_0_r. exact Hxa.
  - unfold small in *. rewrite Z.mul_0_l, Z.add_0_r. exact Hxb.
  - unfold small in *. lia.
Qed.

Section FloatMatrix.
Variables (w : R) (kd kn : Z) (madd mmul fmul add mul : tau -> tau -> res tau).
Hypothesis K : machine_ok w kd kn madd mmul add mul.
Hypothesis Kf : forall q B x y, on_grid q B y -> kd * q <= cap -> kn * (Z.abs x * B) <= cap -> kn * Z.abs x <= cap -> B <= cap -> fmul (T x 0 1) y = mul (T x 0 1) y.
Lemma facc_grid q A B a r v : on_grid q A a -> gridv (length r) q B v -> 0 <= B <= cap -> kd * q <= cap -> q * q <= cap -> kn * (rowsum r * B) <= cap -> kn * rowsum r <= cap -> (A + rowsum r * B) * q <= cap ->
  same (on_grid q (A + rowsum r * B)) (accz_ madd fmul a r v) (accz_ add mul a r v).
Proof.
  pose proof (mo_kn _ _ _ _ _ _ _ K) as Kn.
  revert v A a. induction r as [|x xs IH]; intros [|y ys] A a Ga [L F] PB H1 H2 H3 H4 H5; cbn [length] in L; try discriminate; cbn [accz_].
  - apply same_ret. eapply grid_weaken; [exact Ga|]. unfold rowsum; cbn. lia.
  - inversion F as [|? ? Gy Fy]; subst. pose proof (rowsum_pos xs). assert (PA := grid_pos _ _ _ Ga). pose proof (proj1 Ga) as Pq.
    change (rowsum (x :: xs)) with (Z.abs x + rowsum xs) in *. assert (0 <= Z.abs x * B) by nia. assert (0 <= rowsum xs * B) by nia.
    rewrite (Kf q B x y Gy H1) by (try lia; nia). apply (same_bind (on_grid q (Z.abs x * B))).
    { destruct (mo_rat_l _ _ _ _ _ _ _ K q B x 1 y) as (z & _ & Ez & Gz); [lia|exact Gy|lia|nia|nia|]. rewrite Z.mul_1_r in Gz. exists z. auto. }
    intros z Gz.
    eapply same_bind; [apply (mo_add _ _ _ _ _ _ _ K); [exact Ga|exact Gz|exact H2|]|].
    + eapply Z.le_trans; [|exact H5]. apply Z.mul_le_mono_nonneg_r; lia.
    + intros a' Ga'. replace (A + (Z.abs x + rowsum xs) * B) with (A + Z.abs x * B + rowsum xs * B) in * by ring. apply IH; try assumption; try nia. split; [lia|exact Fy].
Qed.
Lemma fdot_grid n q B s m v : narrow n s m -> (0 < n)%nat -> gridv n q B v -> 0 <= B <= cap -> 0 <= s -> kn * s <= cap -> kd * q <= cap -> q * q <= cap -> kn * (s * B) <= cap -> s * B * q <= cap ->
  same (fun r => exists u, r = Some u /\ gridv n q (s * B) u) (dot_product_1_ madd fmul m v) (dot_product_1_ add mul m v).
Proof.
  pose proof (mo_kn _ _ _ _ _ _ _ K) as Kn.
  intros [Lm Fm] Hn Gv PB Hs Hs' H1 H2 H3 H4. unfold dot_product_1_.
  assert (N : ncols m = n). { destruct m as [|r m]; [cbn in Lm; lia|]. inversion Fm as [|? ? [Lr _] _]; subst. exact Lr. }
  rewrite N, (proj1 Gv), Nat.eqb_refl. pose proof (gridv_nth _ _ _ _ 0 Gv Hn) as (x & _ & Gx). pose proof (proj1 Gx) as Pq.
  eapply same_bind; [apply same_mapM with (1 := Fm) (Q := on_grid q (s * B))|].
  - intros r [Lr Rr]. pose proof (rowsum_pos r). assert (rowsum r * B <= s * B) by (apply Z.mul_le_mono_nonneg_r; lia).
    eapply same_weaken; [apply (facc_grid q 0 B t0 r v)|]; try assumption.
    + apply grid_t0; lia.
    + rewrite Lr. exact Gv.
    + eapply Z.le_trans; [|exact H3]. apply Z.mul_le_mono_nonneg_l; lia.
    + eapply Z.le_trans; [|exact Hs']. apply Z.mul_le_mono_nonneg_l; lia.
    + rewrite Z.add_0_l. eapply Z.le_trans; [|exact H4]. apply Z.mul_le_mono_nonneg_r; lia.
    + intros u Gu. eapply grid_weaken; [exact Gu|]. lia.
  - intros u [Lu Fu]. apply same_ret. exists u. split; [reflexivity|]. split; [congruence|exact Fu].
Qed.
Lemma fsymop_grid n q B C s m v c : narrow n s m -> (0 < n)%nat -> gridv n q B v -> gridv n q C c -> 0 <= B -> 0 <= C -> 1 <= s -> kn * s <= cap -> kd * q <= cap -> q * q <= cap -> kn * (s * (B + C)) <= cap -> (s * (B + C) + C) * q <= cap ->
  same (gridv n q (s * (B + C) + C)) (msymop_vec_ madd mmul fmul m v c) (symop_vec_ add mul m v c).
Proof.
  pose proof (mo_kn _ _ _ _ _ _ _ K) as Kn.
  intros Nm Hn Gv Gc PB PC Hs Hs' H1 H2 H3 H4. pose proof (gridv_nth _ _ _ _ 0 Gv Hn) as (x & _ & Gx). pose proof (proj1 Gx) as Pq. unfold msymop_vec_, symop_vec_.
  assert (B + C <= s * (B + C)) by nia. assert (0 <= (s * (B + C)) * q) by nia. assert (0 <= C * q) by nia. assert (s * (B + C) <= cap) by nia.
  eapply same_bind; [apply (sub_vectors_grid K n q B C); try assumption; nia|]. intros d Gd.
  eapply same_bind; [apply (fdot_grid n q (B + C) s); try assumption; try lia; nia|]. intros r (u & -> & Gu). cbn [notNone bind]. apply (add_vectors_grid K); assumption.
Qed.
Lemma fsymop_vecs_grid n q B C s m vs c : narrow n s m -> (0 < n)%nat -> grids n q B vs -> gridv n q C c -> 0 <= B -> 0 <= C -> 1 <= s -> kn * s <= cap -> kd * q <= cap -> q * q <= cap -> kn * (s * (B + C)) <= cap -> (s * (B + C) + C) * q <= cap ->
  same (grids n q (s * (B + C) + C)) (msymop_vecs_ madd mmul fmul m vs c) (symop_vecs_ add mul m vs c).
Proof.
  intros Nm Hn Gv Gc PB PC Hs Hs' H1 H2 H3 H4. unfold msymop_vecs_, symop_vecs_. eapply same_weaken; [apply same_mapM with (1 := Gv) (Q := gridv n q (s * (B + C) + C))|].
  - intros v Hv. apply fsymop_grid; assumption.
  - intros r [_ F]. exact F.
Qed.
Lemma fsymmetric_grid n q B C s ms o c : Forall (narrow n s) ms -> (0 < n)%nat -> grido n q B o -> gridv n q C c -> 0 <= B -> 0 <= C -> 1 <= s -> kn * s <= cap -> kd * q <= cap -> q * q <= cap -> kn * (s * (B + C)) <= cap -> (s * (B + C) + C) * q <= cap ->
  same (fun r => exists o', r = Some (A4 o') /\ grido n q (s * (B + C) + C) o') (mgenerator_obj_symmetric_obj_ madd mmul fmul ms (A4 o) c) (generator_obj_symmetric_obj_ add mul ms (A4 o) c).
Proof.
  intros Nm Hn Go Gc PB PC Hs Hs' H1 H2 H3 H4. cbn [generator_obj_symmetric_obj_ mgenerator_obj_symmetric_obj_]. eapply same_bind; [apply same_mapM with (1 := Nm) (Q := grido n q (s * (B + C) + C))|].
  - intros m Hm. eapply same_weaken; [apply same_mapM with (1 := Go) (Q := grids n q (s * (B + C) + C))|].
    + intros vs Hv. apply fsymop_vecs_grid; assumption.
    + intros r [_ F]. exact F.
  - intros r [_ F]. apply same_ret. exists (concat r). split; [reflexivity|]. unfold grido in *. apply Forall_concat. exact F.
Qed.
End FloatMatrix.

Lemma ico_float q B x y : on_grid q B y -> 1 * q <= cap -> 3 * (Z.abs x * B) <= cap -> 3 * Z.abs x <= cap -> B <= cap -> m_fmul (T x 0 1) y = mul (T x 0 1) y.
Proof.
  intros G H1 H2 H3 H4. destruct (grid_small _ _ _ G) as (Ha & Hb & Hc). unfold cap in *. apply m_fmul_int; unfold small; rewrite ?Z.abs_mul; nia.
Qed.
Lemma dode_float q B x y : on_grid q B y -> 4 * q <= cap -> 8 * (Z.abs x * B) <= cap -> 8 * Z.abs x <= cap -> B <= cap -> md_fmul (T x 0 1) y = dmul (T x 0 1) y.
Proof.
  intros G H1 H2 H3 H4. destruct (grid_small _ _ _ G) as (Ha & Hb & Hc). unfold cap in *. apply md_fmul_int; unfold small; rewrite ?Z.abs_mul; nia.
Qed.
