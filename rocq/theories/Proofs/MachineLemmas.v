(** The machine arithmetic agrees with the exact one while no intermediate value exceeds 2^53. *)
From Coq Require Import Reals ZArith Bool Lia Lra Psatz.
From Flocq Require Import Core IEEE754.BinarySingleNaN IEEE754.Binary IEEE754.Bits.
From Verif Require Import Base.Res Model.Tau Model.IcoScalar Model.DodeScalar Model.Machine Spec.Value
  Proofs.ResLemmas Proofs.ValueLemmas.
Local Open Scope Z_scope.

Lemma wrap64_id z : - 2^63 <= z < 2^63 -> wrap64 z = z.
Proof. intros H. unfold wrap64. rewrite Z.mod_small; lia. Qed.

Local Notation B2R64 := (B2R 53 1024).
Local Notation fin := (is_finite 53 1024).
Local Notation fexp64 := (SpecFloat.fexp 53 1024).
Local Notation fmt := (generic_format radix2 fexp64).

Lemma fexp64_FLT : fexp64 = FLT_exp (-1074) 53.
Proof. reflexivity. Qed.

Global Instance prec53 : Prec_gt_0 53. Proof. reflexivity. Qed.
Global Instance valid64 : Valid_exp fexp64. Proof. apply (fexp_correct 53 1024). reflexivity. Qed.

Lemma int_format z : Z.abs z <= 2^53 -> fmt (IZR z).
Proof.
  intros H.
  replace (IZR z) with (F2R (Float radix2 z 0)) by (unfold F2R; cbn; lra).
  destruct (Z.eq_dec (Z.abs z) (2^53)) as [E|E].
  - assert (z = 2^53 \/ z = - 2^53) as [-> | ->] by lia.
    + replace (F2R (Float radix2 (2^53) 0)) with (bpow radix2 53) by (unfold F2R; cbn; lra).
      apply generic_format_bpow. cbn. lia.
    + replace (F2R (Float radix2 (- 2^53) 0)) with (- bpow radix2 53)%R by (unfold F2R; cbn; lra).
      apply generic_format_opp, generic_format_bpow. cbn. lia.
  - apply generic_format_FLT. eapply (FLT_spec radix2 (-1074) 53); [reflexivity| |]; cbn [Fnum Fexp]; cbn; lia.
Qed.

Lemma small_lt_emax z : Z.abs z <= 2^53 -> (Rabs (IZR z) < bpow radix2 1024)%R.
Proof.
  intros H. rewrite <- abs_IZR. apply Rle_lt_trans with (IZR (2^53)); [apply IZR_le; exact H|].
  change (2^53) with (Zpower radix2 53). rewrite (IZR_Zpower radix2 53) by lia. apply bpow_lt. lia.
Qed.

Lemma f64_exact z : Z.abs z <= 2^53 -> B2R64 (f64 z) = IZR z /\ fin (f64 z) = true.
Proof.
  intros H. unfold f64.
  pose proof (binary_normalize_correct 53 1024 eq_refl eq_refl mode_NE z 0 false) as C.
  replace (F2R {| Fnum := z; Fexp := 0 |}) with (IZR z) in C by (unfold F2R; cbn; lra).
  rewrite round_generic in C; [|apply valid_rnd_N|apply int_format; exact H].
  rewrite Rlt_bool_true in C by (apply small_lt_emax; exact H). tauto.
Qed.

Lemma div_small c g : g <> 0 -> Z.abs c <= 2^53 -> Z.abs (c / g) <= 2^53.
Proof.
  intros Hg Hc.
  destruct (Z_le_gt_dec 0 c), (Z_lt_le_dec 0 g).
  - pose proof (Z.div_pos c g ltac:(lia) ltac:(lia)).
    pose proof (Z.div_le_upper_bound c g c ltac:(lia) ltac:(nia)). lia.
  - rewrite <- Z.div_opp_opp by lia.
    assert (- c / - g <= 0) by (apply Z.div_le_upper_bound; lia).
    assert (- c <= - c / - g) by (apply Z.div_le_lower_bound; nia). lia.
  - assert (c / g <= 0) by (apply Z.div_le_upper_bound; lia).
    assert (c <= c / g) by (apply Z.div_le_lower_bound; nia). lia.
  - rewrite <- Z.div_opp_opp by lia.
    pose proof (Z.div_pos (-c) (-g) ltac:(lia) ltac:(lia)).
    pose proof (Z.div_le_upper_bound (-c) (-g) (-c) ltac:(lia) ltac:(nia)). lia.
Qed.

Lemma idiv_exact c g : g <> 0 -> (g | c) -> Z.abs c <= 2^53 -> Z.abs g <= 2^53 ->
  B2R64 (idiv c g) = IZR (c / g) /\ fin (idiv c g) = true.
Proof.
  intros Hg Hd Hc Hgb. destruct (f64_exact c Hc) as [Vc Fc]. destruct (f64_exact g Hgb) as [Vg Fg].
  assert (Hg' : IZR g <> 0%R) by (apply not_0_IZR; exact Hg).
  unfold idiv, fdiv, b64_div.
  match goal with |- context [Bdiv 53 1024 ?a ?b ?n ?m _ _] =>
    pose proof (Bdiv_correct 53 1024 a b n m (f64 c) (f64 g)) as C end.
  rewrite Vg in C. specialize (C Hg'). rewrite Vc in C.
  assert (E : (IZR c / IZR g = IZR (c / g))%R).
  { destruct Hd as [k ->]. rewrite Z.div_mul by exact Hg. rewrite mult_IZR. field. exact Hg'. }
  rewrite E in C. pose proof (div_small c g Hg Hc) as Hq.
  rewrite round_generic in C; [|apply valid_rnd_N|apply int_format; exact Hq].
  rewrite Rlt_bool_true in C by (apply small_lt_emax; exact Hq).
  rewrite Fc in C. tauto.
Qed.

Lemma fint_exact x z : fin x = true -> B2R64 x = IZR z -> fint x = Ok z.
Proof.
  intros F V. assert (E : Btrunc 53 1024 x = z).
  { apply eq_IZR. rewrite (Btrunc_correct 53 1024 eq_refl x), V.
    apply round_generic; [apply valid_rnd_ZR|].
    replace (IZR z) with (F2R (Float radix2 z 0)) by (unfold F2R; cbn; lra).
    apply generic_format_F2R. intros _. cbn. unfold cexp, FIX_exp. lia. }
  destruct x; cbn [is_finite] in F; try discriminate; cbn [fint]; rewrite E; reflexivity.
Qed.

Lemma fneg_exact x z : fin x = true -> B2R64 x = IZR z -> fin (fneg x) = true /\ B2R64 (fneg x) = IZR (- z).
Proof.
  intros F V. unfold fneg, b64_opp. rewrite is_finite_Bopp, B2R_Bopp, V, opp_IZR. tauto.
Qed.

Lemma fltz_exact x z : fin x = true -> B2R64 x = IZR z -> fltz x = (z <? 0).
Proof.
  intros F V. unfold fltz. destruct (f64_exact 0 ltac:(cbn; lia)) as [V0 F0].
  rewrite (Bcompare_correct 53 1024 x (f64 0) F F0), V, V0.
  destruct (Z.ltb_spec z 0).
  - rewrite Rcompare_Lt by (apply IZR_lt; assumption). reflexivity.
  - destruct (Rcompare_spec (IZR z) 0); try reflexivity. exfalso. apply lt_IZR in H0. lia.
Qed.

Lemma gcd_bound a b B : Z.abs a <= B -> Z.abs b <= B -> 0 <= Z.gcd a b <= B.
Proof.
  intros Ha Hb. split; [apply Z.gcd_nonneg|].
  destruct (Z.eq_dec a 0) as [->|Na].
  - rewrite Z.gcd_0_l. exact Hb.
  - pose proof (Z.gcd_divide_l a b) as D. apply Z.divide_abs_r in D.
    apply Z.divide_pos_le in D; lia.
Qed.

Lemma wgcd_exact a b : Z.abs a <= 2^53 -> Z.abs b <= 2^53 -> wgcd a b = Z.gcd a b.
Proof. intros Ha Hb. unfold wgcd. pose proof (gcd_bound a b (2^53) Ha Hb). apply wrap64_id. lia. Qed.

Definition small (z : Z) := Z.abs z <= 2^53.

Lemma wgcd3 c1 c2 c3 : small c1 -> small c2 -> small c3 ->
  wgcd (wgcd c1 c2) c3 = Z.gcd (Z.gcd c1 c2) c3.
Proof.
  intros H1 H2 H3. rewrite (wgcd_exact c1 c2 H1 H2). apply wgcd_exact; [|exact H3].
  pose proof (gcd_bound c1 c2 _ H1 H2). lia.
Qed.

Lemma gcd3_div c1 c2 c3 : let g := Z.gcd (Z.gcd c1 c2) c3 in (g | c1) /\ (g | c2) /\ (g | c3).
Proof.
  cbn zeta. split; [|split].
  - apply (Z.divide_trans _ (Z.gcd c1 c2)); [apply Z.gcd_divide_l|apply Z.gcd_divide_l].
  - apply (Z.divide_trans _ (Z.gcd c1 c2)); [apply Z.gcd_divide_l|apply Z.gcd_divide_r].
  - apply Z.gcd_divide_r.
Qed.

Lemma idiv_00 : exists s p H, idiv 0 0 = B754_nan 53 1024 s p H.
Proof. eexists _, _, _. reflexivity. Qed.

Lemma m_reduce_exact c1 c2 c3 : small c1 -> small c2 -> small c3 -> m_reduce c1 c2 c3 = reduce c1 c2 c3.
Proof.
  intros H1 H2 H3. unfold m_reduce, reduce. rewrite (wgcd3 c1 c2 c3 H1 H2 H3). cbv zeta.
  pose proof (gcd3_div c1 c2 c3) as (D1 & D2 & D3).
  assert (Hg : 0 <= Z.gcd (Z.gcd c1 c2) c3 <= 2^53).
  { apply gcd_bound; [|exact H3]. pose proof (gcd_bound c1 c2 _ H1 H2). lia. }
  destruct (Z.eqb_spec (Z.gcd (Z.gcd c1 c2) c3) 0) as [E|E].
  - rewrite E in *. apply Z.divide_0_l in D1, D2, D3. subst. reflexivity.
  - set (g := Z.gcd (Z.gcd c1 c2) c3) in *.
    assert (Hg' : Z.abs g <= 2^53) by lia.
    destruct (idiv_exact c1 g E D1 H1 Hg') as [V1 F1].
    destruct (idiv_exact c2 g E D2 H2 Hg') as [V2 F2].
    destruct (idiv_exact c3 g E D3 H3 Hg') as [V3 F3].
    rewrite (fltz_exact _ _ F3 V3). destruct (c3 / g <? 0).
    + destruct (fneg_exact _ _ F1 V1) as [F1' V1'], (fneg_exact _ _ F2 V2) as [F2' V2'], (fneg_exact _ _ F3 V3) as [F3' V3'].
      rewrite (fint_exact _ _ F1' V1'), (fint_exact _ _ F2' V2'), (fint_exact _ _ F3' V3'). reflexivity.
    + rewrite (fint_exact _ _ F1 V1), (fint_exact _ _ F2 V2), (fint_exact _ _ F3 V3). reflexivity.
Qed.

Lemma m_reduce_d_exact c1 c2 c3 : small c1 -> small c2 -> small c3 -> m_reduce_d c1 c2 c3 = reduce c1 c2 c3.
Proof.
  intros H1 H2 H3. unfold m_reduce_d, reduce. rewrite (wgcd3 c1 c2 c3 H1 H2 H3). cbv zeta.
  pose proof (gcd3_div c1 c2 c3) as (D1 & D2 & D3).
  assert (Hg : 0 <= Z.gcd (Z.gcd c1 c2) c3 <= 2^53).
  { apply gcd_bound; [|exact H3]. pose proof (gcd_bound c1 c2 _ H1 H2). lia. }
  destruct (Z.eqb_spec (Z.gcd (Z.gcd c1 c2) c3) 0) as [E|E].
  - rewrite E in *. apply Z.divide_0_l in D1, D2, D3. subst. reflexivity.
  - set (g := Z.gcd (Z.gcd c1 c2) c3) in *.
    assert (Hg' : Z.abs g <= 2^53) by lia.
    destruct (idiv_exact c1 g E D1 H1 Hg') as [V1 F1].
    destruct (idiv_exact c2 g E D2 H2 Hg') as [V2 F2].
    destruct (idiv_exact c3 g E D3 H3 Hg') as [V3 F3].
    rewrite (fint_exact _ _ F1 V1), (fint_exact _ _ F2 V2), (fint_exact _ _ F3 V3). reflexivity.
Qed.

(** Bounds of intermediate values. *)
Lemma babs_add x y X Y : Z.abs x <= X -> Z.abs y <= Y -> Z.abs (x + y) <= X + Y.
Proof. lia. Qed.
Lemma babs_sub x y X Y : Z.abs x <= X -> Z.abs y <= Y -> Z.abs (x - y) <= X + Y.
Proof. lia. Qed.
Lemma babs_opp x X : Z.abs x <= X -> Z.abs (- x) <= X.
Proof. lia. Qed.
Lemma babs_mul x y X Y : Z.abs x <= X -> Z.abs y <= Y -> Z.abs (x * y) <= X * Y.
Proof. intros. rewrite Z.abs_mul. apply Z.mul_le_mono_nonneg; lia. Qed.
Lemma babs_refl x : Z.abs x <= Z.abs x. Proof. lia. Qed.

Ltac bnd1 :=
  lazymatch goal with
  | |- Z.abs (- ?x) <= _ => eapply (babs_opp x); bnd1
  | |- Z.abs (?x + ?y) <= _ => eapply (babs_add x y); [bnd1|bnd1]
  | |- Z.abs (?x - ?y) <= _ => eapply (babs_sub x y); [bnd1|bnd1]
  | |- Z.abs (?x * ?y) <= _ => eapply (babs_mul x y); [bnd1|bnd1]
  | H : Z.abs ?x <= _ |- Z.abs ?x <= _ => exact H
  | |- Z.abs ?x <= _ => exact (babs_refl x)
  end.
Ltac bnd := eapply Z.le_trans; [bnd1|vm_compute; discriminate].

Lemma wrap64_abs z : Z.abs z <= 2^62 -> wrap64 z = z.
Proof. intros. apply wrap64_id. lia. Qed.

Ltac unwrap :=
  unfold wadd, wsub, wmul, wneg;
  repeat match goal with |- context [wrap64 ?e] =>
    lazymatch e with context [wrap64 _] => fail | _ => rewrite (wrap64_abs e) by bnd end end.

Lemma m_add_eq a b : within (2^26) a -> within (2^26) b -> m_add a b = add a b.
Proof.
  destruct a as [a0 a1 a2], b as [b0 b1 b2]. intros (A0 & A1 & A2) (B0 & B1 & B2). cbn [ta tb tc] in *.
  unfold m_add, add; cbn [ta tb tc]. unwrap. apply m_reduce_exact; unfold small; bnd.
Qed.

Lemma m_mul_eq a b : within (2^25) a -> within (2^25) b -> m_mul a b = mul a b.
Proof.
  destruct a as [a0 a1 a2], b as [b0 b1 b2]. intros (A0 & A1 & A2) (B0 & B1 & B2). cbn [ta tb tc] in *.
  unfold m_mul, mul; cbn [ta tb tc]. unwrap. apply m_reduce_exact; unfold small; bnd.
Qed.

Lemma md_add_eq a b : within (2^26) a -> within (2^26) b -> md_add a b = dadd a b.
Proof.
  destruct a as [a0 a1 a2], b as [b0 b1 b2]. intros (A0 & A1 & A2) (B0 & B1 & B2). cbn [ta tb tc] in *.
  unfold md_add, dadd; cbn [ta tb tc]. unwrap. apply m_reduce_d_exact; unfold small; bnd.
Qed.

Lemma md_mul_eq a b : within (2^25) a -> within (2^25) b -> md_mul a b = dmul a b.
Proof.
  destruct a as [a0 a1 a2], b as [b0 b1 b2]. intros (A0 & A1 & A2) (B0 & B1 & B2). cbn [ta tb tc] in *.
  unfold md_mul, dmul; cbn [ta tb tc]. unwrap. apply m_reduce_d_exact; unfold small; bnd.
Qed.

Lemma m_neg_eq b : within (2^26) b -> m_mul tm1 b = mul tm1 b.
Proof.
  destruct b as [b0 b1 b2]. intros (B0 & B1 & B2). cbn [ta tb tc] in *.
  unfold m_mul, mul, tm1; cbn [ta tb tc]. unwrap. apply m_reduce_exact; unfold small; bnd.
Qed.

Lemma md_neg_eq b : within (2^26) b -> md_mul tm1 b = dmul tm1 b.
Proof.
  destruct b as [b0 b1 b2]. intros (B0 & B1 & B2). cbn [ta tb tc] in *.
  unfold md_mul, dmul, tm1; cbn [ta tb tc]. unwrap. apply m_reduce_d_exact; unfold small; bnd.
Qed.

Lemma div_within c g B : g <> 0 -> Z.abs c <= B -> Z.abs (c / g) <= B.
Proof.
  intros Hg Hc.
  destruct (Z_le_gt_dec 0 c), (Z_lt_le_dec 0 g).
  - pose proof (Z.div_pos c g ltac:(lia) ltac:(lia)).
    pose proof (Z.div_le_upper_bound c g c ltac:(lia) ltac:(nia)). lia.
  - rewrite <- Z.div_opp_opp by lia.
    assert (- c / - g <= 0) by (apply Z.div_le_upper_bound; lia).
    assert (- c <= - c / - g) by (apply Z.div_le_lower_bound; nia). lia.
  - assert (c / g <= 0) by (apply Z.div_le_upper_bound; lia).
    assert (c <= c / g) by (apply Z.div_le_lower_bound; nia). lia.
  - rewrite <- Z.div_opp_opp by lia.
    pose proof (Z.div_pos (-c) (-g) ltac:(lia) ltac:(lia)).
    pose proof (Z.div_le_upper_bound (-c) (-g) (-c) ltac:(lia) ltac:(nia)). lia.
Qed.

Lemma reduce_within c1 c2 c3 r B : reduce c1 c2 c3 = Ok r -> Z.abs c1 <= B -> Z.abs c2 <= B -> Z.abs c3 <= B -> within B r.
Proof.
  intros H H1 H2 H3. unfold reduce in H. destruct (Z.eqb_spec (Z.gcd (Z.gcd c1 c2) c3) 0) as [|E]; [discriminate|].
  pose proof (div_within _ _ _ E H1). pose proof (div_within _ _ _ E H2). pose proof (div_within _ _ _ E H3).
  destruct (_ <? 0); injection H as <-; unfold within; cbn [ta tb tc]; lia.
Qed.

Lemma neg_within b r B : mul tm1 b = Ok r -> within B b -> within B r.
Proof.
  destruct b as [b0 b1 b2]. intros H (H0 & H1 & H2). cbn [ta tb tc] in *.
  unfold mul, tm1 in H; cbn [ta tb tc] in H. eapply reduce_within; [exact H|lia..].
Qed.

Lemma dneg_within b r B : dmul tm1 b = Ok r -> within B b -> within (4 * B) r.
Proof.
  destruct b as [b0 b1 b2]. intros H (H0 & H1 & H2). cbn [ta tb tc] in *.
  unfold dmul, tm1 in H; cbn [ta tb tc] in H. eapply reduce_within; [exact H|lia..].
Qed.

Lemma m_sub_eq a b : within (2^26) a -> within (2^26) b -> m_sub a b = sub a b.
Proof.
  intros Ha Hb. unfold m_sub, sub. rewrite (m_neg_eq b Hb). destruct (mul tm1 b) as [b'|e] eqn:E; [|reflexivity].
  cbn [bind]. apply m_add_eq; [exact Ha|eapply neg_within; eassumption].
Qed.

Lemma md_sub_eq a b : within (2^24) a -> within (2^24) b -> md_sub a b = dsub a b.
Proof.
  assert (W : forall t, within (2^24) t -> within (2^26) t) by (unfold within; intros; lia).
  intros Ha Hb. unfold md_sub, dsub. rewrite (md_neg_eq b (W _ Hb)). destruct (dmul tm1 b) as [b'|e] eqn:E; [|reflexivity].
  cbn [bind]. apply md_add_eq; [apply W; exact Ha|]. pose proof (dneg_within _ _ _ E Hb) as D.
  unfold within in *. lia.
Qed.

Lemma m_div_reduce_exact c1 c2 c3 : small c1 -> small c2 -> small c3 -> m_div_reduce c1 c2 c3 = div_reduce c1 c2 c3.
Proof.
  intros H1 H2 H3. unfold m_div_reduce, div_reduce. rewrite (wgcd3 c1 c2 c3 H1 H2 H3), (m_reduce_exact c1 c2 c3 H1 H2 H3).
  unfold reduce. cbv zeta. destruct (Z.gcd (Z.gcd c1 c2) c3 =? 0); cbn [negb bind]; [reflexivity|].
  destruct (_ <? 0); reflexivity.
Qed.

Lemma md_div_reduce_exact c1 c2 c3 : small c1 -> small c2 -> small c3 -> md_div_reduce c1 c2 c3 = div_reduce c1 c2 c3.
Proof.
  intros H1 H2 H3. unfold md_div_reduce, div_reduce. rewrite (wgcd3 c1 c2 c3 H1 H2 H3), (m_reduce_d_exact c1 c2 c3 H1 H2 H3).
  unfold reduce. cbv zeta. destruct (Z.gcd (Z.gcd c1 c2) c3 =? 0); cbn [negb bind]; [reflexivity|].
  destruct (_ <? 0); reflexivity.
Qed.

Lemma m_div_eq a b : within (2^17) a -> within (2^17) b -> m_div a b = div a b.
Proof.
  destruct a as [a0 a1 a2], b as [b0 b1 b2]. intros (A0 & A1 & A2) (B0 & B1 & B2). cbn [ta tb tc] in *.
  unfold m_div, div; cbn [ta tb tc]. unwrap.
  destruct (_ && _); [reflexivity|]. destruct (_ && _); [reflexivity|].
  destruct (negb _); [destruct (negb _)|]; apply m_div_reduce_exact; unfold small; bnd.
Qed.

Lemma md_div_eq a b : within (2^16) a -> within (2^16) b -> md_div a b = ddiv a b.
Proof.
  destruct a as [a0 a1 a2], b as [b0 b1 b2]. intros (A0 & A1 & A2) (B0 & B1 & B2). cbn [ta tb tc] in *.
  unfold md_div, ddiv; cbn [ta tb tc]. unwrap. cbv zeta.
  destruct (_ && _); [reflexivity|]. destruct (_ && _); [reflexivity|].
  destruct (negb _); [destruct (negb _); [destruct (negb _)|]|]; apply md_div_reduce_exact; unfold small; bnd.
Qed.

(** Above 2^53 the quotient by g = 1 is always an even integer. *)
Lemma round_even n : 2^53 < n < 2^63 ->
  exists k, round radix2 fexp64 ZnearestE (IZR n) = IZR (2 * k).
Proof.
  intros Hn. set (r := round radix2 fexp64 ZnearestE (IZR n)).
  assert (Fr : fmt r) by (apply generic_format_round; [apply valid64|apply valid_rnd_N]).
  assert (Lr : (bpow radix2 53 <= r)%R).
  { apply round_ge_generic; [apply valid64|apply valid_rnd_N|apply generic_format_bpow; cbn; lia|].
    rewrite <- (IZR_Zpower radix2 53) by lia. apply IZR_le. cbn. lia. }
  assert (Hm : 54 <= mag radix2 r).
  { apply mag_ge_bpow. cbn [Z.sub]. rewrite Rabs_pos_eq; [exact Lr|].
    apply Rle_trans with (2 := Lr). apply bpow_ge_0. }
  red in Fr. rewrite Fr. unfold F2R; cbn [Fnum Fexp].
  set (m := Ztrunc _). set (e := cexp radix2 fexp64 r).
  assert (He : 1 <= e).
  { unfold e, cexp. rewrite fexp64_FLT. unfold FLT_exp. lia. }
  exists (m * 2 ^ (e - 1)). replace (2 * (m * 2 ^ (e - 1))) with (m * 2 ^ e).
  - rewrite mult_IZR. f_equal. change (2 ^ e) with (Zpower radix2 e). rewrite IZR_Zpower by lia. reflexivity.
  - replace e with (1 + (e - 1)) at 1 by lia. rewrite Z.pow_add_r by lia. lia.
Qed.

Lemma f64_big n : 2^53 < n < 2^63 -> exists k, B2R64 (f64 n) = IZR (2 * k) /\ fin (f64 n) = true.
Proof.
  intros Hn. destruct (round_even n Hn) as [k Hk]. exists k.
  pose proof (binary_normalize_correct 53 1024 eq_refl eq_refl mode_NE n 0 false) as C.
  replace (F2R {| Fnum := n; Fexp := 0 |}) with (IZR n) in C by (unfold F2R; cbn; lra).
  cbn [round_mode] in C. rewrite Hk in C.
  rewrite Rlt_bool_true in C; [unfold f64; tauto|].
  rewrite <- Hk. apply Rle_lt_trans with (bpow radix2 63).
  - apply abs_round_le_generic; [apply valid64|apply valid_rnd_N|apply generic_format_bpow; cbn; lia|].
    rewrite <- (IZR_Zpower radix2 63) by lia. rewrite <- abs_IZR. apply IZR_le. cbn. lia.
  - apply bpow_lt. lia.
Qed.

Lemma idiv_big_1 n : 2^53 < n < 2^63 -> exists k, fint (idiv n 1) = Ok (2 * k).
Proof.
  intros Hn. destruct (f64_big n Hn) as (k & V & F). exists k.
  destruct (f64_exact 1 ltac:(cbn; lia)) as [V1 F1].
  assert (Fm : fmt (IZR (2 * k))) by (rewrite <- V; apply generic_format_B2R).
  assert (Lt : (Rabs (IZR (2 * k)) < bpow radix2 1024)%R) by (rewrite <- V; apply abs_B2R_lt_emax).
  unfold idiv, fdiv, b64_div.
  match goal with |- context [Bdiv 53 1024 ?a ?b ?nn ?m ?x ?y] =>
    pose proof (Bdiv_correct 53 1024 a b nn m x y) as C end.
  rewrite V1 in C. specialize (C R1_neq_R0). rewrite V in C.
  replace (IZR (2 * k) / 1)%R with (IZR (2 * k)) in C by lra.
  rewrite round_generic in C; [|apply valid_rnd_N|exact Fm].
  rewrite Rlt_bool_true in C by exact Lt. rewrite F in C.
  destruct C as (C1 & C2 & _). apply fint_exact; assumption.
Qed.

Lemma m_add_big n : 2^53 < n < 2^63 -> exists k, m_add (T n 0 1) t0 = Ok (T (2 * k) 0 1).
Proof.
  intros Hn. destruct (idiv_big_1 n Hn) as [k Hk]. exists k.
  unfold m_add, t0; cbn [ta tb tc]. unfold wadd, wmul. rewrite !Z.mul_0_l, !Z.mul_1_r.
  rewrite (wrap64_id n) by lia. change (wrap64 0) with 0. change (wrap64 1) with 1. rewrite !Z.add_0_r.
  rewrite (wrap64_id n) by lia. change (wrap64 0) with 0.
  unfold m_reduce. unfold wgcd. rewrite Z.gcd_0_r. rewrite Z.gcd_1_r. change (wrap64 1) with 1.
  cbv zeta. rewrite Hk.
  change (fltz (idiv 1 1)) with false. cbn [bind]. change (fint (idiv 0 1)) with (Ok 0). change (fint (idiv 1 1)) with (Ok 1). reflexivity.
Qed.

Lemma md_add_big n : 2^53 < n < 2^63 -> exists k, md_add (T n 0 1) t0 = Ok (T (2 * k) 0 1).
Proof.
  intros Hn. destruct (idiv_big_1 n Hn) as [k Hk]. exists k.
  unfold md_add, t0; cbn [ta tb tc]. unfold wadd, wmul. rewrite !Z.mul_0_l, !Z.mul_1_r.
  rewrite (wrap64_id n) by lia. change (wrap64 0) with 0. change (wrap64 1) with 1. rewrite !Z.add_0_r.
  rewrite (wrap64_id n) by lia. change (wrap64 0) with 0.
  unfold m_reduce_d. unfold wgcd. rewrite Z.gcd_0_r. rewrite Z.gcd_1_r. change (wrap64 1) with 1.
  cbv zeta. rewrite Hk.
  cbn [bind]. change (fint (idiv 0 1)) with (Ok 0). change (fint (idiv 1 1)) with (Ok 1). reflexivity.
Qed.
