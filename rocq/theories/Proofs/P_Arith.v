(** Scalar arithmetic of ico2: C01, C02, C03, C05. *)
From Coq Require Import Reals List ZArith Lia Lra Bool.
From Verif Require Import Base.Res Model.Tau Model.Arr Model.IcoScalar Spec.Value Spec.RVec Spec.Shape.

From Verif Require Import Proofs.ResLemmas Proofs.ValueLemmas Proofs.Irrational Proofs.ScalarLemmas Proofs.RVecLemmas
  Proofs.VectorLemmas Proofs.VectorLemmas2.
Import ListNotations.
Local Open Scope R_scope.

(** C01: add, sub and mul succeed with the canonical triple of the exact result. *)
Lemma L_C01_add_exact : forall a b, wf a -> wf b -> evals TAU (add a b) (val TAU a + val TAU b).
Proof. exact (g_add ico_arith). Qed.

Lemma L_C01_sub_exact : forall a b, wf a -> wf b -> evals TAU (sub a b) (val TAU a - val TAU b).
Proof. exact sub_spec. Qed.

Lemma L_C01_mul_exact : forall a b, wf a -> wf b -> evals TAU (mul a b) (val TAU a * val TAU b).
Proof. exact (g_mul ico_arith). Qed.

Example E_C01_ex : wf (T 1 2 (-4)) /\ wf (T 3 (-1) 6) /\
  add (T 1 2 (-4)) (T 3 (-1) 6) = Ok (T 3 (-8) 12) /\
  sub (T 1 2 (-4)) (T 3 (-1) 6) = Ok (T (-9) (-4) 12) /\
  mul (T 1 2 (-4)) (T 3 (-1) 6) = Ok (T (-1) (-3) 24).
Proof. unfold wf; cbn [tc]. repeat split; try lia. Qed.

(** C02: div answers None exactly for a divisor denoting zero, otherwise the
    canonical triple of the exact quotient. *)
Lemma L_C02_div_exact : forall a b, wf a -> wf b -> val TAU b <> 0 ->
  exists r, div a b = Ok (Some r) /\ canon r /\ val TAU r = val TAU a / val TAU b.
Proof.
  intros a b Ha Hb Hn. pose proof (div_spec a b Ha Hb) as H.
  destruct (Z.eqb (ta b) 0 && Z.eqb (tb b) 0) eqn:E.
  - exfalso. apply Hn. apply (val_zero_iff TAU b TAU_irrational Hb).
    apply andb_prop in E as [E1 E2]. split; apply Z.eqb_eq; assumption.
  - destruct (div a b) as [o|]; [|contradiction]. destruct H as (r & -> & C & V). exists r. auto.
Qed.

Lemma L_C02_div_none : forall a b, wf a -> wf b -> (div a b = Ok None <-> val TAU b = 0).
Proof.
  intros a b Ha Hb. split; intros H.
  - destruct (Req_dec (val TAU b) 0) as [E|E]; [exact E|].
    destruct (L_C02_div_exact a b Ha Hb E) as (r & Hr & _). congruence.
  - pose proof (div_spec a b Ha Hb) as S. apply (val_zero_iff TAU b TAU_irrational Hb) in H as [E1 E2].
    rewrite E1, E2 in S. exact S.
Qed.

(** The norm form used as denominator vanishes only at zero, so the branch
    ERROR_2 cannot be reached from a divisor that passed the first test. *)
Lemma L_C02_norm_nonzero : forall b0 b1 : Z, (b0 <> 0 \/ b1 <> 0)%Z -> (b0 * b0 - b1 * b1 + b0 * b1 <> 0)%Z.
Proof. exact norm_tau_nonzero. Qed.

Example E_C02_ex : wf (T 1 0 1) /\ wf (T 0 1 1) /\ div (T 1 0 1) (T 0 1 1) = Ok (Some (T (-1) 1 1)) /\
  div (T 5 7 3) (T 2 (-3) 4) = Ok (Some (T (-64) (-116) 33)) /\ div (T 1 0 1) (T 0 0 5) = Ok None.
Proof. unfold wf; cbn [tc]. repeat split; try lia. Qed.

(** C03: canonical triples are equal iff the numbers they denote are equal, for
    scalars, vectors and lists of vectors. *)
Lemma L_C03_canonical : forall x y, canon x -> canon y -> (val TAU x = val TAU y <-> x = y).
Proof.
  intros x y Cx Cy. split; [|congruence]. apply (canon_val_eq TAU); auto. exact TAU_irrational.
Qed.

Lemma L_C03_canonical_vectors : forall u v, canonv u -> canonv v -> (vals TAU u = vals TAU v <-> u = v).
Proof.
  intros u v Cu Cv. split; [|congruence]. apply (canonv_vals_eq TAU); auto. exact TAU_irrational.
Qed.

(** Every well-formed triple has exactly one canonical representative. *)
Lemma L_C03_canonical_unique : forall x, wf x ->
  exists r, canon r /\ val TAU r = val TAU x /\ forall r', canon r' -> val TAU r' = val TAU x -> r' = r.
Proof.
  intros x Wx. pose proof (g_add ico_arith x t0 Wx wf_t0) as H.
  destruct (add x t0) as [r|]; [|contradiction]. destruct H as [C V]. rewrite val_t0, Rplus_0_r in V.
  exists r. split; [exact C|]. split; [exact V|]. intros r' C' V'.
  apply (canon_val_eq TAU); auto; [exact TAU_irrational|congruence].
Qed.

(** Without canonical form the comparison of arrays is not the comparison of numbers. *)
Lemma L_C03_noncanonical_differs : exists x y, wf x /\ wf y /\ val TAU x = val TAU y /\ x <> y.
Proof.
  exists (T 1 1 2), (T 2 2 4). unfold wf, val; cbn [ta tb tc]. repeat split; try lia; try discriminate. lra.
Qed.

Example E_C03_ex : canon (T 3 (-8) 12) /\ canon (T 3 (-8) 12) /\ ~ canon (T 2 2 4) /\ ~ canon (T 1 1 (-1)).
Proof. unfold canon; cbn. repeat split; lia. Qed.

(** C05: behaviour on zero denominators. *)
Lemma L_C05_add_raises : forall a b, (exists e, add a b = Raise e) <->
  (ta a * tc b + ta b * tc a = 0 /\ tb a * tc b + tb b * tc a = 0 /\ tc a * tc b = 0)%Z.
Proof. intros a b. apply reduce_raise. Qed.

Lemma L_C05_mul_raises : forall a b, (exists e, mul a b = Raise e) <->
  (ta a * ta b + tb a * tb b = 0 /\ ta a * tb b + tb a * ta b + tb a * tb b = 0 /\ tc a * tc b = 0)%Z.
Proof. intros a b. apply reduce_raise. Qed.

Lemma reduce_exn c1 c2 c3 e : reduce c1 c2 c3 = Raise e -> e = ValueError.
Proof.
  unfold reduce. destruct (_ =? 0)%Z; [congruence|]. destruct (_ <? 0)%Z; discriminate.
Qed.

Lemma L_C05_only_ValueError : forall a b e, add a b = Raise e \/ mul a b = Raise e \/ sub a b = Raise e ->
  e = ValueError.
Proof.
  intros a b e [H|[H|H]]; [eapply reduce_exn; exact H|eapply reduce_exn; exact H|].
  unfold sub in H. destruct (mul tm1 b) as [b'|e'] eqn:E; cbn in H.
  - eapply reduce_exn; exact H.
  - apply reduce_exn in E. congruence.
Qed.

(** A zero denominator is propagated: whenever one denominator is zero and the call
    returns, the result has denominator zero. *)
Lemma reduce_den0 c1 c2 r : reduce c1 c2 0 = Ok r -> tc r = 0%Z.
Proof.
  intros H. destruct (Z.eq_dec c1 0) as [->|N1].
  - destruct (Z.eq_dec c2 0) as [->|N2]; [discriminate|].
    destruct (reduce_zero_den 0 c2) as (r' & E & T0); [lia|]. congruence.
  - destruct (reduce_zero_den c1 c2) as (r' & E & T0); [lia|]. congruence.
Qed.

Lemma L_C05_zero_den_propagates : forall a b r, (tc a = 0 \/ tc b = 0)%Z ->
  add a b = Ok r \/ mul a b = Ok r \/ sub a b = Ok r -> tc r = 0%Z.
Proof.
  intros a b r Hz. unfold sub. 
  assert (A : forall a b r, (tc a = 0 \/ tc b = 0)%Z -> add a b = Ok r -> tc r = 0%Z).
  { clear. intros a b r Hz H. unfold add in H. replace (tc a * tc b)%Z with 0%Z in H by (destruct Hz as [-> | ->]; lia).
    eapply reduce_den0; exact H. }
  assert (M : forall a b r, (tc a = 0 \/ tc b = 0)%Z -> mul a b = Ok r -> tc r = 0%Z).
  { clear. intros a b r Hz H. unfold mul in H. replace (tc a * tc b)%Z with 0%Z in H by (destruct Hz as [-> | ->]; lia).
    eapply reduce_den0; exact H. }
  intros [H|[H|H]]; [eapply A; eassumption|eapply M; eassumption|].
  apply bind_Ok_inv in H as (b' & Hm & Ha). apply (A a b' r); [|exact Ha].
  destruct Hz as [Hz|Hz]; [left; exact Hz|right; eapply M; [right; exact Hz|exact Hm]].
Qed.

(** div never raises, whatever its arguments. *)
Lemma div_reduce_total c1 c2 c3 : exists o, div_reduce c1 c2 c3 = Ok o.
Proof. unfold div_reduce. destruct (negb _); [destruct (_ <? _)%Z|]; eauto. Qed.

Lemma L_C05_div_never_raises : forall a b, exists o, div a b = Ok o.
Proof.
  intros a b. unfold div.
  destruct (_ && _); [eauto|]. destruct (_ && _); [eauto|].
  destruct (negb _); [destruct (negb _)|]; apply div_reduce_total.
Qed.

Example E_C05_ex : add (T 1 0 0) (T 1 1 2) = Ok (T 1 0 0) /\ add (T 1 0 0) (T 1 1 0) = Raise ValueError
  /\ mul (T 1 1 0) (T 3 0 1) = Ok (T 1 1 0) /\ mul (T 0 0 0) (T 3 0 1) = Raise ValueError
  /\ sub (T 1 0 1) (T 0 0 0) = Raise ValueError /\ div (T 1 0 0) (T 2 0 1) = Ok (Some (T 1 0 0)).
Proof. repeat split. Qed.
