From Coq Require Import Reals ZArith Lia Lra Bool Psatz.
From Verif Require Import Model.Tau Model.Sign Spec.Value Proofs.Irrational Proofs.ValueLemmas.
Local Open Scope R_scope.

Lemma neg_sqrt_spec d x y : (0 < d)%Z ->
  neg_sqrt d x y = true <-> IZR x + IZR y * sqrt (IZR d) < 0.
Proof.
  intros Hd. pose proof (IZR_lt 0 d Hd) as Hd'.
  set (s := sqrt (IZR d)) in *.
  assert (Hs : 0 < s) by (apply sqrt_lt_R0; exact Hd').
  assert (Hss : s * s = IZR d) by (apply sqrt_sqrt; lra).
  unfold neg_sqrt. rewrite !orb_true_iff, !andb_true_iff, !Z.ltb_lt, !Z.leb_le.
  split.
  - intros [[[[H1 H2]|[H1 H2]]|[[H1 H2] H3]]|[[H1 H2] H3]].
    + apply IZR_lt in H1. apply IZR_le in H2. nra.
    + apply IZR_le in H1. apply IZR_lt in H2. nra.
    + apply IZR_lt in H1. apply IZR_lt in H2. apply IZR_lt in H3. rewrite !mult_IZR in H3.
      assert (E : IZR d * IZR y * IZR y = (IZR y * s) * (IZR y * s)) by (rewrite <- Hss; ring).
      rewrite E in H3. assert (0 < IZR y * s) by nra. nra.
    + apply IZR_lt in H1. apply IZR_lt in H2. apply IZR_lt in H3. rewrite !mult_IZR in H3.
      assert (E : IZR d * IZR y * IZR y = (IZR y * s) * (IZR y * s)) by (rewrite <- Hss; ring).
      rewrite E in H3. assert (IZR y * s < 0) by nra. nra.
  - intros H. destruct (Z.lt_trichotomy x 0) as [Hx|[Hx|Hx]].
    + destruct (Z_le_gt_dec y 0) as [Hy|Hy]; [left; left; left; lia|].
      left; right. split; [lia|].
      apply lt_IZR. rewrite !mult_IZR. apply IZR_lt in Hx. assert (Hy' : (0 < y)%Z) by lia. apply IZR_lt in Hy'.
      replace (IZR d * IZR y * IZR y) with ((IZR y * s) * (IZR y * s)) by (rewrite <- Hss; ring).
      assert (0 < IZR y * s) by nra. nra.
    + subst x. assert (y < 0)%Z. { apply lt_IZR. cbn in H. nra. } left; left; right; lia.
    + assert (Hy : (y < 0)%Z). { apply lt_IZR. apply IZR_lt in Hx. nra. }
      right. split; [lia|]. apply lt_IZR. rewrite !mult_IZR. apply IZR_lt in Hx. apply IZR_lt in Hy.
      replace (IZR d * IZR y * IZR y) with ((IZR y * s) * (IZR y * s)) by (rewrite <- Hss; ring).
      assert (IZR y * s < 0) by nra. nra.
Qed.

Lemma pos_sqrt_spec d x y : (0 < d)%Z ->
  pos_sqrt d x y = true <-> 0 < IZR x + IZR y * sqrt (IZR d).
Proof.
  intros Hd. unfold pos_sqrt. rewrite neg_sqrt_spec by exact Hd. rewrite !opp_IZR. split; nra.
Qed.

Lemma quot_neg_pos x c : 0 < c -> (x / c < 0 <-> x < 0).
Proof.
  intros Hc. assert (0 < / c) by (apply Rinv_0_lt_compat; exact Hc). unfold Rdiv.
  split; intros H'; nra.
Qed.
Lemma quot_neg_neg x c : c < 0 -> (x / c < 0 <-> 0 < x).
Proof.
  intros Hc. assert (/ c < 0) by (apply Rinv_lt_0_compat; exact Hc). unfold Rdiv.
  split; intros H'; nra.
Qed.

Lemma neg_tau_spec t : wf t -> neg_tau t = true <-> val TAU t < 0.
Proof.
  intros Hw. unfold neg_tau, val, wf in *.
  assert (E : IZR (2 * ta t + tb t) + IZR (tb t) * sqrt (IZR 5) = 2 * (IZR (ta t) + IZR (tb t) * TAU)).
  { rewrite plus_IZR, mult_IZR. unfold TAU. field. }
  destruct (Z.ltb_spec (tc t) 0) as [Hc|Hc].
  - rewrite pos_sqrt_spec by lia. rewrite E. rewrite quot_neg_neg by (apply IZR_lt in Hc; exact Hc). lra.
  - rewrite neg_sqrt_spec by lia. rewrite E. rewrite quot_neg_pos; [lra|]. apply IZR_lt; lia.
Qed.

Lemma neg_sin_spec t : wf t -> neg_sin t = true <-> val SIN t < 0.
Proof.
  intros Hw. unfold neg_sin, val, wf in *.
  assert (E : IZR (2 * ta t) + IZR (tb t) * sqrt (IZR 3) = 2 * (IZR (ta t) + IZR (tb t) * SIN)).
  { rewrite mult_IZR. unfold SIN. field. }
  destruct (Z.ltb_spec (tc t) 0) as [Hc|Hc].
  - rewrite pos_sqrt_spec by lia. rewrite E. rewrite quot_neg_neg by (apply IZR_lt in Hc; exact Hc). lra.
  - rewrite neg_sqrt_spec by lia. rewrite E. rewrite quot_neg_pos; [lra|]. apply IZR_lt; lia.
Qed.
