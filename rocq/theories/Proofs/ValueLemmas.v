(** Canonical forms, reduction to lowest terms. *)
From Coq Require Import Reals ZArith Znumtheory Lia Lra Psatz.
From Verif Require Import Base.Res Model.Tau Spec.Value Proofs.ResLemmas.
Local Open Scope Z_scope.

Lemma canon_wf t : canon t -> wf t.
Proof. unfold canon, wf; lia. Qed.

Lemma gcd3_0 a b c : Z.gcd (Z.gcd a b) c = 0 <-> a = 0 /\ b = 0 /\ c = 0.
Proof.
  rewrite Z.gcd_eq_0, Z.gcd_eq_0. tauto.
Qed.

Lemma gcd3_divide a b c :
  (Z.gcd (Z.gcd a b) c | a) /\ (Z.gcd (Z.gcd a b) c | b) /\ (Z.gcd (Z.gcd a b) c | c).
Proof.
  repeat split.
  - eapply Z.divide_trans; [apply Z.gcd_divide_l|apply Z.gcd_divide_l].
  - eapply Z.divide_trans; [apply Z.gcd_divide_l|apply Z.gcd_divide_r].
  - apply Z.gcd_divide_r.
Qed.

Lemma gcd3_scale g a b c : 0 <= g ->
  Z.gcd (Z.gcd (g*a) (g*b)) (g*c) = g * Z.gcd (Z.gcd a b) c.
Proof.
  intros Hg. rewrite Z.gcd_mul_mono_l_nonneg by assumption.
  rewrite Z.gcd_mul_mono_l_nonneg by assumption. reflexivity.
Qed.

Lemma gcd3_opp a b c : Z.gcd (Z.gcd (-a) (-b)) (-c) = Z.gcd (Z.gcd a b) c.
Proof. rewrite Z.gcd_opp_r, Z.gcd_opp_l, Z.gcd_opp_r. reflexivity. Qed.

(** The triple after division by the (signed) gcd, described without division. *)
Lemma lowest_spec (c1 c2 c3 : Z) : c3 <> 0 ->
  let g := Z.gcd (Z.gcd c1 c2) c3 in
  exists k d1 d2 d3,
    (if c3 / g <? 0 then T (-(c1/g)) (-(c2/g)) (-(c3/g)) else T (c1/g) (c2/g) (c3/g)) = T d1 d2 d3 /\
    k <> 0 /\ c1 = k * d1 /\ c2 = k * d2 /\ c3 = k * d3 /\
    canon (T d1 d2 d3).
Proof.
  intros H3 g.
  assert (Hg0 : g <> 0) by (intros E; apply gcd3_0 in E; lia).
  assert (Hgpos : 0 <= g) by apply Z.gcd_nonneg.
  destruct (gcd3_divide c1 c2 c3) as ([e1 E1] & [e2 E2] & [e3 E3]).
  fold g in E1, E2, E3.
  assert (Hg : g = g * Z.gcd (Z.gcd e1 e2) e3).
  { rewrite <- gcd3_scale by lia.
    replace (g*e1) with c1 by lia. replace (g*e2) with c2 by lia.
    replace (g*e3) with c3 by lia. reflexivity. }
  assert (Hc : Z.gcd (Z.gcd e1 e2) e3 = 1) by nia.
  replace (c1/g) with e1 by (rewrite E1; symmetry; apply Z.div_mul; assumption).
  replace (c2/g) with e2 by (rewrite E2; symmetry; apply Z.div_mul; assumption).
  replace (c3/g) with e3 by (rewrite E3; symmetry; apply Z.div_mul; assumption).
  destruct (Z.ltb_spec e3 0) as [Hlt|Hge].
  - exists (-g), (-e1), (-e2), (-e3). repeat split; cbn [ta tb tc]; try lia.
    rewrite gcd3_opp; assumption.
  - exists g, e1, e2, e3.
    assert (e3 <> 0) by nia.
    repeat split; cbn [ta tb tc]; try lia; assumption.
Qed.

Lemma val_scale w k d1 d2 d3 : k <> 0 -> d3 <> 0 ->
  (val w (T (k*d1) (k*d2) (k*d3)) = val w (T d1 d2 d3))%R.
Proof.
  intros Hk Hd. unfold val; cbn [ta tb tc]. rewrite !mult_IZR.
  assert (IZR k <> 0)%R by (apply not_0_IZR; assumption).
  assert (IZR d3 <> 0)%R by (apply not_0_IZR; assumption).
  field; split; assumption.
Qed.

Lemma reduce_spec w c1 c2 c3 : c3 <> 0 ->
  wp (reduce c1 c2 c3) (fun r => canon r /\ val w r = val w (T c1 c2 c3)).
Proof.
  intros H3. unfold reduce.
  destruct (Z.eqb_spec (Z.gcd (Z.gcd c1 c2) c3) 0) as [E|E];
    [apply gcd3_0 in E; lia|].
  destruct (lowest_spec c1 c2 c3 H3) as (k & d1 & d2 & d3 & Heq & Hk & E1 & E2 & E3 & Hcan).
  cbv zeta in Heq.
  assert (Hd3 : d3 <> 0) by (apply canon_wf in Hcan; exact Hcan).
  assert (Hv : val w (T d1 d2 d3) = val w (T c1 c2 c3)).
  { rewrite E1, E2, E3. symmetry; apply val_scale; assumption. }
  destruct (c3 / _ <? 0); rewrite Heq; cbn [wp]; split; assumption.
Qed.

Lemma reduce_raise c1 c2 c3 :
  (exists e, reduce c1 c2 c3 = Raise e) <-> c1 = 0 /\ c2 = 0 /\ c3 = 0.
Proof.
  rewrite <- gcd3_0. unfold reduce.
  destruct (Z.eqb_spec (Z.gcd (Z.gcd c1 c2) c3) 0) as [E|E].
  - split; eauto.
  - split; [|tauto]. intros [e H]. destruct (_ <? 0) in H; discriminate.
Qed.

(** Equal values of canonical triples: equal triples. *)
Lemma canon_val_eq w x y : irrational w -> canon x -> canon y ->
  val w x = val w y -> x = y.
Proof.
  intros Hw [Hx Gx] [Hy Gy] H.
  destruct x as [a b c], y as [a' b' c']; cbn [ta tb tc] in *.
  unfold val in H; cbn [ta tb tc] in H.
  assert (Hc : IZR c <> 0%R) by (apply not_0_IZR; lia).
  assert (Hc' : IZR c' <> 0%R) by (apply not_0_IZR; lia).
  assert (E : (IZR (a*c' - a'*c) + IZR (b*c' - b'*c) * w = 0)%R).
  { rewrite !minus_IZR, !mult_IZR.
    assert (((IZR a + IZR b * w) * IZR c' = (IZR a' + IZR b' * w) * IZR c)%R).
    { transitivity ((IZR a + IZR b * w) / IZR c * (IZR c * IZR c'))%R; [field; assumption|].
      rewrite H. field; assumption. }
    lra. }
  apply Hw in E as [E1 E2].
  assert (Hg : Z.gcd (Z.gcd (c'*a) (c'*b)) (c'*c) = Z.gcd (Z.gcd (c*a') (c*b')) (c*c')).
  { f_equal; [f_equal|]; lia. }
  rewrite !gcd3_scale in Hg by lia. rewrite Gx, Gy in Hg.
  assert (c = c') by lia. subst c'.
  f_equal; nia.
Qed.
