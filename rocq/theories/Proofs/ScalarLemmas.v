(** add, mul, sub, div of both packages are exact. *)
From Coq Require Import Reals ZArith Lia Lra Psatz Bool.
From Verif Require Import Base.Res Model.Tau Model.IcoScalar Model.DodeScalar
  Spec.Value Proofs.ResLemmas Proofs.ValueLemmas Proofs.Irrational.
Local Open Scope R_scope.

(** What the vector code needs to know about the scalar code.  Used for both
    packages: w = TAU with add/mul of ico2, w = SIN with those of dode2. *)
Record arith_ok (w : R) (add mul : tau -> tau -> res tau) : Prop := ArithOk {
  ao_irr : irrational w;
  ao_add : forall a b, wf a -> wf b ->
    wp (add a b) (fun r => canon r /\ val w r = val w a + val w b);
  ao_mul : forall a b, wf a -> wf b ->
    wp (mul a b) (fun r => canon r /\ val w r = val w a * val w b)
}.

Lemma wf_IZR t : wf t -> IZR (tc t) <> 0.
Proof. intros H; apply not_0_IZR; exact H. Qed.

Lemma val_zero_iff w t : irrational w -> wf t ->
  (val w t = 0 <-> ta t = 0%Z /\ tb t = 0%Z).
Proof.
  intros Hw Ht. pose proof (wf_IZR t Ht) as Hc. unfold val. split.
  - intros H. apply Hw.
    transitivity ((IZR (ta t) + IZR (tb t) * w) / IZR (tc t) * IZR (tc t)); [field; assumption|].
    rewrite H; ring.
  - intros [-> ->]. field; assumption.
Qed.

Lemma wf_t0 : wf t0. Proof. unfold wf; cbn; lia. Qed.
Lemma wf_t1 : wf t1. Proof. unfold wf; cbn; lia. Qed.
Lemma wf_tm1 : wf tm1. Proof. unfold wf; cbn; lia. Qed.
Lemma canon_t0 : canon t0. Proof. split; cbn; lia. Qed.
Lemma canon_t1 : canon t1. Proof. split; cbn; lia. Qed.
Lemma canon_tm1 : canon tm1. Proof. split; cbn; lia. Qed.
Lemma val_t0 w : val w t0 = 0. Proof. unfold val, t0; cbn [ta tb tc]. lra. Qed.
Lemma val_t1 w : val w t1 = 1. Proof. unfold val, t1; cbn [ta tb tc]. lra. Qed.
Lemma val_tm1 w : val w tm1 = -1. Proof. unfold val, tm1; cbn [ta tb tc]. lra. Qed.

Ltac reduce_val :=
  eapply wp_mono; [apply reduce_spec|intros r [Hr Hv]; split; [exact Hr|rewrite Hv]].

Lemma add_spec w a b : wf a -> wf b ->
  wp (add a b) (fun r => canon r /\ val w r = val w a + val w b).
Proof.
  intros Ha Hb. unfold add. reduce_val.
  - unfold wf in *; nia.
  - pose proof (wf_IZR a Ha). pose proof (wf_IZR b Hb).
    unfold val; cbn [ta tb tc]. rewrite !plus_IZR, !mult_IZR. field; auto.
Qed.

Lemma mul_spec a b : wf a -> wf b ->
  wp (mul a b) (fun r => canon r /\ val TAU r = val TAU a * val TAU b).
Proof.
  intros Ha Hb. unfold mul. reduce_val.
  - unfold wf in *; nia.
  - pose proof (wf_IZR a Ha). pose proof (wf_IZR b Hb).
    unfold val; cbn [ta tb tc]. rewrite !plus_IZR, !mult_IZR.
    field_simplify_eq; [|auto].
    replace (TAU^2) with (TAU+1) by (rewrite <- TAU_sq; ring). ring.
Qed.

Lemma dadd_spec w a b : wf a -> wf b ->
  wp (dadd a b) (fun r => canon r /\ val w r = val w a + val w b).
Proof. exact (add_spec w a b). Qed.

Lemma dmul_spec a b : wf a -> wf b ->
  wp (dmul a b) (fun r => canon r /\ val SIN r = val SIN a * val SIN b).
Proof.
  intros Ha Hb. unfold dmul. reduce_val.
  - unfold wf in *; nia.
  - pose proof (wf_IZR a Ha). pose proof (wf_IZR b Hb).
    unfold val; cbn [ta tb tc]. rewrite !plus_IZR, !mult_IZR, !plus_IZR, !mult_IZR.
    field_simplify_eq; [|auto].
    replace (SIN^2) with (3/4) by (rewrite <- SIN_sq; ring). field.
Qed.

Lemma ico_arith : arith_ok TAU add mul.
Proof.
  constructor; [exact TAU_irrational| |exact mul_spec].
  intros; apply add_spec; assumption.
Qed.

Lemma dode_arith : arith_ok SIN dadd dmul.
Proof.
  constructor; [exact SIN_irrational| |exact dmul_spec].
  intros; apply dadd_spec; assumption.
Qed.

Section Sub.
  Context {w : R} {add mul : tau -> tau -> res tau} (A : arith_ok w add mul).

  Lemma sub_spec_gen a b : wf a -> wf b ->
    wp (bind (mul tm1 b) (fun b' => add a b'))
       (fun r => canon r /\ val w r = val w a - val w b).
  Proof.
    intros Ha Hb. apply wp_bind.
    eapply wp_mono; [apply (ao_mul _ _ _ A); [exact wf_tm1|exact Hb]|].
    intros b' [Cb Vb].
    eapply wp_mono; [apply (ao_add _ _ _ A); [exact Ha|apply canon_wf; exact Cb]|].
    intros r [Cr Vr]. split; [exact Cr|]. rewrite Vr, Vb, val_tm1. ring.
  Qed.
End Sub.

Lemma sub_spec a b : wf a -> wf b ->
  wp (sub a b) (fun r => canon r /\ val TAU r = val TAU a - val TAU b).
Proof. exact (sub_spec_gen ico_arith a b). Qed.

Lemma dsub_spec a b : wf a -> wf b ->
  wp (dsub a b) (fun r => canon r /\ val SIN r = val SIN a - val SIN b).
Proof. exact (sub_spec_gen dode_arith a b). Qed.

(** ** Division *)

Lemma div_reduce_spec w c1 c2 c3 : c3 <> 0%Z ->
  wp (div_reduce c1 c2 c3) (fun o => exists r, o = Some r /\ canon r /\ val w r = val w (T c1 c2 c3)).
Proof.
  intros H3. pose proof (reduce_spec w c1 c2 c3 H3) as H.
  unfold reduce, div_reduce in *.
  destruct (Z.eqb_spec (Z.gcd (Z.gcd c1 c2) c3) 0) as [E|E]; cbn [negb].
  - destruct H.
  - destruct (_ <? _)%Z; cbn [wp] in *; eauto.
Qed.

(** The error branch of the final reduction. *)
Lemma div_reduce_none c1 c2 c3 :
  div_reduce c1 c2 c3 = Ok None <-> c1 = 0%Z /\ c2 = 0%Z /\ c3 = 0%Z.
Proof.
  rewrite <- gcd3_0. unfold div_reduce.
  destruct (Z.eqb_spec (Z.gcd (Z.gcd c1 c2) c3) 0) as [E|E]; cbn [negb].
  - tauto.
  - split; [|tauto]. destruct (_ <? _)%Z; discriminate.
Qed.

Lemma norm_tau_nonzero b0 b1 : (b0 <> 0 \/ b1 <> 0)%Z ->
  (b0 * b0 - b1 * b1 + b0 * b1 <> 0)%Z.
Proof.
  intros Hb H.
  assert (E : ((2*b0+b1)*(2*b0+b1) = 5 * (b1*b1))%Z) by lia.
  destruct (sq_prime 5 _ _ prime_5 E); lia.
Qed.

Lemma norm_sin_nonzero b0 b1 : (b0 <> 0 \/ b1 <> 0)%Z ->
  (4 * (b0 * b0) - 3 * (b1 * b1) <> 0)%Z.
Proof.
  intros Hb H.
  assert (E : ((2*b0)*(2*b0) = 3 * (b1*b1))%Z) by lia.
  destruct (sq_prime 3 _ _ Znumtheory.prime_3 E); lia.
Qed.

Definition is_quotient (w : R) (a b : tau) (o : option tau) : Prop :=
  exists r, o = Some r /\ canon r /\ val w r = val w a / val w b.

Lemma val_nonzero w b : irrational w -> wf b -> ~ (ta b = 0 /\ tb b = 0)%Z ->
  IZR (ta b) + IZR (tb b) * w <> 0.
Proof. intros Hw Hb Hn E. apply Hn. exact (Hw _ _ E). Qed.

Lemma zero_quotient w a b : wf a -> (ta a = 0 /\ tb a = 0)%Z ->
  is_quotient w a b (Some t0).
Proof.
  intros Ha [E1 E2]. exists t0. split; [reflexivity|]. split; [exact canon_t0|].
  rewrite val_t0. unfold val. rewrite E1, E2. pose proof (wf_IZR a Ha).
  replace (0 + 0 * w) with 0 by ring. unfold Rdiv. ring.
Qed.

Lemma div_spec a b : wf a -> wf b ->
  if Z.eqb (ta b) 0 && Z.eqb (tb b) 0 then div a b = Ok None
  else wp (div a b) (is_quotient TAU a b).
Proof.
  intros Ha Hb. unfold div.
  destruct (Z.eqb (ta b) 0 && Z.eqb (tb b) 0) eqn:Eb; [reflexivity|].
  assert (Nb : ~ (ta b = 0 /\ tb b = 0)%Z) by lia.
  pose proof (val_nonzero TAU b TAU_irrational Hb Nb) as Vb.
  pose proof (wf_IZR a Ha) as Ca. pose proof (wf_IZR b Hb) as Cb.
  destruct (Z.eqb (ta a) 0 && Z.eqb (tb a) 0) eqn:Ea.
  { apply zero_quotient; [exact Ha|lia]. }
  destruct (Z.eqb_spec (tb b) 0) as [E1|E1]; cbn [negb].
  - eapply wp_mono; [apply (div_reduce_spec TAU)|].
    + unfold wf in *; nia.
    + intros o (r & -> & Cr & Vr). exists r. split; [reflexivity|split; [exact Cr|]].
      rewrite Vr. unfold val; cbn [ta tb tc]. rewrite E1 in *. rewrite !mult_IZR.
      assert (IZR (ta b) <> 0) by (apply not_0_IZR; lia).
      field. repeat split; auto; lra.
  - destruct (Z.eqb_spec (ta b) 0) as [E0|E0]; cbn [negb].
    + eapply wp_mono; [apply (div_reduce_spec TAU)|].
      * unfold wf in *; nia.
      * intros o (r & -> & Cr & Vr). exists r. split; [reflexivity|split; [exact Cr|]].
        rewrite Vr. unfold val; cbn [ta tb tc]. rewrite E0 in *. rewrite !mult_IZR, plus_IZR, opp_IZR.
        assert (IZR (tb b) <> 0) by (apply not_0_IZR; lia).
        assert (TAU <> 0) by (pose proof TAU_bounds; lra).
        field_simplify_eq; [|repeat split; auto; lra].
        replace (TAU^2) with (TAU+1) by (rewrite <- TAU_sq; ring). ring.
    + assert (Nn : (ta b * ta b - tb b * tb b + ta b * tb b <> 0)%Z)
        by (apply norm_tau_nonzero; lia).
      eapply wp_mono; [apply (div_reduce_spec TAU)|].
      * unfold wf in *; nia.
      * intros o (r & -> & Cr & Vr). exists r. split; [reflexivity|split; [exact Cr|]].
        rewrite Vr. unfold val; cbn [ta tb tc].
        apply not_0_IZR in Nn. revert Nn.
        rewrite !mult_IZR, !plus_IZR, !minus_IZR, !plus_IZR, !mult_IZR. intros Nn.
        set (x := IZR (ta a)) in *. set (y := IZR (tb a)) in *. set (z := IZR (tc a)) in *.
        set (p := IZR (ta b)) in *. set (q := IZR (tb b)) in *. set (s := IZR (tc b)) in *.
        assert (HN : p * p - q * q + p * q = (p + q*TAU) * (p + q - q*TAU)).
        { transitivity (p*p + p*q - q*q*(TAU*TAU - TAU)); [rewrite TAU_sq; ring|ring]. }
        assert (HM : (x * p + x * q - y * q) * s + (y * p - x * q) * s * TAU
                     = (x + y*TAU) * (p + q - q*TAU) * s).
        { transitivity (s * (x*p + x*q - y*q*(TAU*TAU-TAU) + (y*p - x*q)*TAU)); [rewrite TAU_sq; ring|ring]. }
        rewrite HM, HN. rewrite HN in Nn.
        field. repeat split; auto; intros E; apply Nn; rewrite E; ring.
Qed.

Lemma ddiv_spec a b : wf a -> wf b ->
  if Z.eqb (ta b) 0 && Z.eqb (tb b) 0 then ddiv a b = Ok None
  else wp (ddiv a b) (is_quotient SIN a b).
Proof.
  intros Ha Hb. unfold ddiv.
  destruct (Z.eqb (ta b) 0 && Z.eqb (tb b) 0) eqn:Eb; [reflexivity|].
  assert (Nb : ~ (ta b = 0 /\ tb b = 0)%Z) by lia.
  pose proof (val_nonzero SIN b SIN_irrational Hb Nb) as Vb.
  pose proof (wf_IZR a Ha) as Ca. pose proof (wf_IZR b Hb) as Cb.
  destruct (Z.eqb (ta a) 0 && Z.eqb (tb a) 0) eqn:Ea.
  { apply zero_quotient; [exact Ha|lia]. }
  destruct (Z.eqb_spec (tb b) 0) as [E1|E1]; cbn [negb].
  - eapply wp_mono; [apply (div_reduce_spec SIN)|].
    + unfold wf in *; nia.
    + intros o (r & -> & Cr & Vr). exists r. split; [reflexivity|split; [exact Cr|]].
      rewrite Vr. unfold val; cbn [ta tb tc]. rewrite E1 in *. rewrite !mult_IZR.
      assert (IZR (ta b) <> 0) by (apply not_0_IZR; lia).
      field. repeat split; auto; lra.
  - destruct (Z.eqb_spec (ta b) 0) as [E0|E0]; cbn [negb].
    + eapply wp_mono; [apply (div_reduce_spec SIN)|].
      * unfold wf in *; nia.
      * intros o (r & -> & Cr & Vr). exists r. split; [reflexivity|split; [exact Cr|]].
        rewrite Vr. unfold val; cbn [ta tb tc]. rewrite E0 in *. rewrite !mult_IZR.
        assert (IZR (tb b) <> 0) by (apply not_0_IZR; lia).
        assert (SIN <> 0) by (pose proof SIN_bounds; lra).
        field_simplify_eq; [|repeat split; auto; lra].
        replace (SIN^2) with (3/4) by (rewrite <- SIN_sq; ring). field.
    + assert (Nn : (4 * (ta b * ta b) - 3 * (tb b * tb b) <> 0)%Z)
        by (apply norm_sin_nonzero; lia).
      destruct (Z.eqb_spec (4 * (ta b * ta b) - 3 * (tb b * tb b)) 0) as [E|_]; [tauto|].
      cbn [negb].
      eapply wp_mono; [apply (div_reduce_spec SIN)|].
      * unfold wf in *; nia.
      * intros o (r & -> & Cr & Vr). exists r. split; [reflexivity|split; [exact Cr|]].
        rewrite Vr. unfold val; cbn [ta tb tc].
        apply not_0_IZR in Nn. revert Nn.
        rewrite !mult_IZR, !minus_IZR, !mult_IZR. intros Nn.
        set (x := IZR (ta a)) in *. set (y := IZR (tb a)) in *. set (z := IZR (tc a)) in *.
        set (p := IZR (ta b)) in *. set (q := IZR (tb b)) in *. set (s := IZR (tc b)) in *.
        assert (HN : 4 * (p * p) - 3 * (q * q) = 4 * (p + q*SIN) * (p - q*SIN)).
        { transitivity (4 * (p*p) - 4 * (q*q) * (SIN*SIN)); [rewrite SIN_sq; field|ring]. }
        assert (HM : s * (4 * x * p - 3 * y * q) + -4 * s * (x * q - y * p) * SIN
                     = 4 * (x + y*SIN) * (p - q*SIN) * s).
        { transitivity (s * (4*x*p - 4 * y * q * (SIN*SIN)) + -4 * s * (x*q - y*p)*SIN);
            [rewrite SIN_sq; field|ring]. }
        rewrite HM, HN. rewrite HN in Nn.
        field. repeat split; auto; intros E; apply Nn; rewrite E; ring.
Qed.

(** ** Uniqueness: a canonical triple is determined by its value. *)
Lemma wp_canon_det {w} (m1 m2 : res tau) x :
  irrational w ->
  wp m1 (fun r => canon r /\ val w r = x) -> wp m2 (fun r => canon r /\ val w r = x) ->
  m1 = m2.
Proof.
  intros Hw H1 H2. destruct m1 as [r1|], m2 as [r2|]; cbn in *; try tauto.
  f_equal. destruct H1 as [C1 V1], H2 as [C2 V2].
  apply (canon_val_eq w); auto. congruence.
Qed.
