(** Scalar arithmetic of dode2: C45, C46. *)
From Coq Require Import Reals List ZArith Lia Lra Bool.
From Verif Require Import Base.Res Model.Tau Model.Arr Model.IcoScalar Model.DodeScalar Spec.Value Spec.RVec Spec.Shape.

From Verif Require Import Proofs.ResLemmas Proofs.ValueLemmas Proofs.Irrational Proofs.ScalarLemmas Proofs.RVecLemmas
  Proofs.VectorLemmas Proofs.VectorLemmas2.
Import ListNotations.
Local Open Scope R_scope.

(** C45: add, sub and mul succeed with the canonical triple of the exact result. *)
Lemma L_C45_add_exact : forall a b, wf a -> wf b -> evals SIN (dadd a b) (val SIN a + val SIN b).
Proof. exact (g_add dode_arith). Qed.

Lemma L_C45_sub_exact : forall a b, wf a -> wf b -> evals SIN (dsub a b) (val SIN a - val SIN b).
Proof. exact dsub_spec. Qed.

Lemma L_C45_mul_exact : forall a b, wf a -> wf b -> evals SIN (dmul a b) (val SIN a * val SIN b).
Proof. exact (g_mul dode_arith). Qed.

Lemma L_C45_div_exact : forall a b, wf a -> wf b -> val SIN b <> 0 ->
  exists r, ddiv a b = Ok (Some r) /\ canon r /\ val SIN r = val SIN a / val SIN b.
Proof.
  intros a b Ha Hb Hn. pose proof (ddiv_spec a b Ha Hb) as H.
  destruct (Z.eqb (ta b) 0 && Z.eqb (tb b) 0) eqn:E.
  - exfalso. apply Hn. apply (val_zero_iff SIN b SIN_irrational Hb).
    apply andb_prop in E as [E1 E2]. split; apply Z.eqb_eq; assumption.
  - destruct (ddiv a b) as [o|]; [|contradiction]. destruct H as (r & -> & C & V). exists r. auto.
Qed.

Lemma L_C45_div_none : forall a b, wf a -> wf b -> (ddiv a b = Ok None <-> val SIN b = 0).
Proof.
  intros a b Ha Hb. split; intros H.
  - destruct (Req_dec (val SIN b) 0) as [E|E]; [exact E|].
    destruct (L_C45_div_exact a b Ha Hb E) as (r & Hr & _). congruence.
  - pose proof (ddiv_spec a b Ha Hb) as S. apply (val_zero_iff SIN b SIN_irrational Hb) in H as [E1 E2].
    rewrite E1, E2 in S. exact S.
Qed.

(** The branch for 4*b0^2 = 3*b1^2 is never taken by a non-zero divisor. *)
Lemma L_C45_norm_nonzero : forall b0 b1 : Z, (b0 <> 0 \/ b1 <> 0)%Z -> (4 * (b0 * b0) - 3 * (b1 * b1) <> 0)%Z.
Proof. exact norm_sin_nonzero. Qed.

Example E_C45_ex : wf (T 1 2 (-4)) /\ wf (T 3 (-1) 6) /\
  dadd (T 1 2 (-4)) (T 3 (-1) 6) = Ok (T 3 (-8) 12) /\
  dmul (T 1 2 (-4)) (T 3 (-1) 6) = Ok (T (-3) (-10) 48) /\
  ddiv (T 1 0 1) (T 0 1 1) = Ok (Some (T 0 4 3)) /\ ddiv (T 1 0 1) (T 0 0 5) = Ok None.
Proof. unfold wf; cbn [tc]. repeat split; try lia; vm_compute; reflexivity. Qed.

(** C46: canonical triples are equal iff the numbers they denote are equal. *)
Lemma L_C46_canonical : forall x y, canon x -> canon y -> (val SIN x = val SIN y <-> x = y).
Proof.
  intros x y Cx Cy. split; [|congruence]. apply (canon_val_eq SIN); auto. exact SIN_irrational.
Qed.

Lemma L_C46_canonical_vectors : forall u v, canonv u -> canonv v -> (vals SIN u = vals SIN v <-> u = v).
Proof.
  intros u v Cu Cv. split; [|congruence]. apply (canonv_vals_eq SIN); auto. exact SIN_irrational.
Qed.

Lemma L_C46_canonical_unique : forall x, wf x ->
  exists r, canon r /\ val SIN r = val SIN x /\ forall r', canon r' -> val SIN r' = val SIN x -> r' = r.
Proof.
  intros x Wx. pose proof (g_add dode_arith x t0 Wx wf_t0) as H.
  destruct (dadd x t0) as [r|]; [|contradiction]. destruct H as [C V]. rewrite val_t0, Rplus_0_r in V.
  exists r. split; [exact C|]. split; [exact V|]. intros r' C' V'.
  apply (canon_val_eq SIN); auto; [exact SIN_irrational|congruence].
Qed.

Example E_C46_ex : canon (T 3 (-8) 12) /\ canon (T 0 4 3) /\ ~ canon (T 2 2 4) /\ ~ canon (T 1 1 (-1)).
Proof. unfold canon; cbn. repeat split; lia. Qed.
