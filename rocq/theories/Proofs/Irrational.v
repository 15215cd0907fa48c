(** tau and sqrt(3)/2 are irrational. *)
From Coq Require Import Reals ZArith Znumtheory Lia Lra Psatz.
From Verif Require Import Model.Tau Spec.Value.
Local Open Scope Z_scope.

Lemma prime_5 : prime 5.
Proof.
  apply prime_intro; [lia|].
  intros n Hn.
  assert (n = 1 \/ n = 2 \/ n = 3 \/ n = 4) as [->|[->|[->| ->]]] by lia;
    apply Zgcd_1_rel_prime; reflexivity.
Qed.

Lemma sq_prime_descent d : prime d ->
  forall n, 0 <= n -> forall x y, Z.abs y <= n -> x * x = d * (y * y) -> y = 0.
Proof.
  intros Hd.
  assert (Hd2 : 2 <= d) by (pose proof (prime_ge_2 d Hd); lia).
  refine (natlike_ind _ _ _).
  - intros x y Hy _. lia.
  - intros n Hn IH x y Hy Hxy.
    assert (Dx : (d | x)).
    { destruct (prime_mult d Hd x x) as [D|D]; auto. exists (y*y). lia. }
    destruct Dx as [x' ->].
    assert (Hy2 : y * y = d * (x' * x')).
    { assert (d * (y*y) = d * (d * (x'*x'))) by lia. nia. }
    assert (Dy : (d | y)).
    { destruct (prime_mult d Hd y y) as [D|D]; auto. exists (x'*x'). lia. }
    destruct Dy as [y' ->].
    assert (Hx2 : x' * x' = d * (y' * y')).
    { assert (d * (x'*x') = d * (d * (y'*y'))) by lia. nia. }
    destruct (Z.eq_dec y' 0) as [->|Hne]; [lia|].
    assert (y' = 0) as ->; [|lia].
    apply (IH x' y'); [nia|assumption].
Qed.

Lemma sq_prime d x y : prime d -> x * x = d * (y * y) -> x = 0 /\ y = 0.
Proof.
  intros Hd H.
  assert (y = 0) as -> by (apply (sq_prime_descent d Hd (Z.abs y) (Z.abs_nonneg y) x y); lia).
  split; nia.
Qed.

Local Open Scope R_scope.

Lemma TAU_sq : TAU * TAU = TAU + 1.
Proof.
  unfold TAU. assert (H : sqrt 5 * sqrt 5 = 5) by (apply sqrt_sqrt; lra).
  field_simplify; nra.
Qed.

Lemma TAU_bounds : 1.6 < TAU < 1.7.
Proof.
  unfold TAU.
  assert (H : sqrt 5 * sqrt 5 = 5) by (apply sqrt_sqrt; lra).
  assert (H0 : 0 <= sqrt 5) by apply sqrt_pos.
  split; nra.
Qed.

Lemma SIN_sq : SIN * SIN = 3 / 4.
Proof.
  unfold SIN. assert (H : sqrt 3 * sqrt 3 = 3) by (apply sqrt_sqrt; lra).
  nra.
Qed.

Lemma SIN_bounds : 0.8 < SIN < 0.9.
Proof.
  unfold SIN.
  assert (H : sqrt 3 * sqrt 3 = 3) by (apply sqrt_sqrt; lra).
  assert (H0 : 0 <= sqrt 3) by apply sqrt_pos.
  split; nra.
Qed.

Lemma TAU_irrational : irrational TAU.
Proof.
  intros p q H.
  assert (E : IZR ((2*p+q)*(2*p+q)) = IZR (5 * (q*q))).
  { rewrite !mult_IZR, !plus_IZR, !mult_IZR.
    pose proof TAU_sq as Ht.
    assert (Hp : IZR p = - (IZR q * TAU)) by lra. rewrite Hp.
    transitivity (IZR q * IZR q * (4 * (TAU*TAU) - 4 * TAU + 1)); [ring|].
    rewrite Ht; ring. }
  apply eq_IZR in E.
  destruct (sq_prime 5 _ _ prime_5 E) as [H1 H2]. lia.
Qed.

Lemma SIN_irrational : irrational SIN.
Proof.
  intros p q H.
  assert (E : IZR ((2*p)*(2*p)) = IZR (3 * (q*q))).
  { rewrite !mult_IZR.
    assert (Hp : IZR p = - (IZR q * SIN)) by lra. rewrite Hp.
    transitivity (IZR q * IZR q * (4 * (SIN*SIN))); [ring|].
    rewrite SIN_sq; field. }
  apply eq_IZR in E.
  destruct (sq_prime 3 _ _ prime_3 E) as [H1 H2]. lia.
Qed.
