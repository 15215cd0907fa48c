(** Machine arithmetic of ico2 and dode2 scalars: C04. *)
From Coq Require Import Reals List ZArith Lia Lra Bool.
From Verif Require Import Base.Res Model.Tau Model.Machine Spec.Value Spec.RVec Spec.Shape.

From Verif Require Import Model.IcoScalar Model.DodeScalar Proofs.ResLemmas Proofs.ValueLemmas Proofs.Irrational
  Proofs.ScalarLemmas Proofs.RVecLemmas Proofs.VectorLemmas Proofs.VectorLemmas2 Proofs.MachineLemmas.
Local Open Scope R_scope.

(** C04: within the bound the int64/float64 computation returns the canonical triple
    of the exact result. *)
Lemma L_C04_ico_add_exact : forall a b, wf a -> wf b -> within (2^26) a -> within (2^26) b ->
  evals TAU (m_add a b) (val TAU a + val TAU b).
Proof. intros a b Ha Hb Wa Wb. rewrite m_add_eq by assumption. apply (g_add ico_arith); assumption. Qed.

Lemma L_C04_ico_sub_exact : forall a b, wf a -> wf b -> within (2^26) a -> within (2^26) b ->
  evals TAU (m_sub a b) (val TAU a - val TAU b).
Proof. intros a b Ha Hb Wa Wb. rewrite m_sub_eq by assumption. apply sub_spec; assumption. Qed.

Lemma L_C04_ico_mul_exact : forall a b, wf a -> wf b -> within (2^25) a -> within (2^25) b ->
  evals TAU (m_mul a b) (val TAU a * val TAU b).
Proof. intros a b Ha Hb Wa Wb. rewrite m_mul_eq by assumption. apply (g_mul ico_arith); assumption. Qed.

Lemma L_C04_ico_div_exact : forall a b, wf a -> wf b -> within (2^17) a -> within (2^17) b -> val TAU b <> 0 ->
  exists r, m_div a b = Ok (Some r) /\ canon r /\ val TAU r = val TAU a / val TAU b.
Proof.
  intros a b Ha Hb Wa Wb Hn. rewrite m_div_eq by assumption. pose proof (div_spec a b Ha Hb) as H.
  destruct (Z.eqb (ta b) 0 && Z.eqb (tb b) 0) eqn:E.
  - exfalso. apply Hn. apply (val_zero_iff TAU b TAU_irrational Hb).
    apply andb_prop in E as [E1 E2]. split; apply Z.eqb_eq; assumption.
  - destruct (div a b) as [o|]; [|contradiction]. destruct H as (r & -> & C & V). exists r. auto.
Qed.

Lemma L_C04_dode_add_exact : forall a b, wf a -> wf b -> within (2^26) a -> within (2^26) b ->
  evals SIN (md_add a b) (val SIN a + val SIN b).
Proof. intros a b Ha Hb Wa Wb. rewrite md_add_eq by assumption. apply (g_add dode_arith); assumption. Qed.

Lemma L_C04_dode_sub_exact : forall a b, wf a -> wf b -> within (2^24) a -> within (2^24) b ->
  evals SIN (md_sub a b) (val SIN a - val SIN b).
Proof. intros a b Ha Hb Wa Wb. rewrite md_sub_eq by assumption. apply dsub_spec; assumption. Qed.

Lemma L_C04_dode_mul_exact : forall a b, wf a -> wf b -> within (2^25) a -> within (2^25) b ->
  evals SIN (md_mul a b) (val SIN a * val SIN b).
Proof. intros a b Ha Hb Wa Wb. rewrite md_mul_eq by assumption. apply (g_mul dode_arith); assumption. Qed.

Lemma L_C04_dode_div_exact : forall a b, wf a -> wf b -> within (2^16) a -> within (2^16) b -> val SIN b <> 0 ->
  exists r, md_div a b = Ok (Some r) /\ canon r /\ val SIN r = val SIN a / val SIN b.
Proof.
  intros a b Ha Hb Wa Wb Hn. rewrite md_div_eq by assumption. pose proof (ddiv_spec a b Ha Hb) as H.
  destruct (Z.eqb (ta b) 0 && Z.eqb (tb b) 0) eqn:E.
  - exfalso. apply Hn. apply (val_zero_iff SIN b SIN_irrational Hb).
    apply andb_prop in E as [E1 E2]. split; apply Z.eqb_eq; assumption.
  - destruct (ddiv a b) as [o|]; [|contradiction]. destruct H as (r & -> & C & V). exists r. auto.
Qed.

(** Beyond the bound: an int64 product that overflows gives a well-formed wrong
    triple, and no error. *)
Lemma L_C04_overflow_wrong : exists a b r, wf a /\ wf b /\ int64 a /\ int64 b /\
  m_mul a b = Ok r /\ canon r /\ val TAU r <> val TAU a * val TAU b.
Proof.
  exists (T (2^32) 0 1), (T (2^32) 0 1), (T 0 0 1).
  split; [unfold wf; cbn; lia|]. split; [unfold wf; cbn; lia|].
  split; [unfold int64; cbn; lia|]. split; [unfold int64; cbn; lia|].
  split; [vm_compute; reflexivity|]. split; [unfold canon; cbn; lia|].
  unfold val; cbn [ta tb tc]. intros H. assert (E : IZR 0 = IZR (2^32) * IZR (2^32)) by (revert H; cbn; lra).
  rewrite <- mult_IZR in E. apply eq_IZR in E. discriminate E.
Qed.

(** Float rounding alone, without any overflow: adding zero to ANY odd integer
    between 2^53 and 2^63 returns a canonical triple denoting a different number. *)
Lemma L_C04_rounding_wrong : forall n, (2^53 < n < 2^63)%Z -> Z.odd n = true ->
  exists r r', m_add (T n 0 1) (T 0 0 1) = Ok r /\ canon r /\ val TAU r <> IZR n /\
               md_add (T n 0 1) (T 0 0 1) = Ok r' /\ canon r' /\ val SIN r' <> IZR n.
Proof.
  intros n Hn Ho. destruct (m_add_big n Hn) as [k Hk]. destruct (md_add_big n Hn) as [k' Hk'].
  assert (K : forall w j, val w (T (2 * j) 0 1) <> IZR n).
  { intros w j H. unfold val in H; cbn [ta tb tc] in H.
    assert (E : IZR (2 * j) = IZR n) by lra. apply eq_IZR in E. subst n.
    rewrite Z.odd_mul in Ho. discriminate. }
  assert (Cn : forall j, canon (T (2 * j) 0 1)).
  { intros j. unfold canon; cbn [ta tb tc]. rewrite Z.gcd_1_r. lia. }
  exists (T (2 * k) 0 1), (T (2 * k') 0 1). split; [exact Hk|]. split; [apply Cn|]. split; [apply K|].
  split; [exact Hk'|]. split; [apply Cn|apply K].
Qed.

Example E_C04_ex : within (2^25) (T 33554432 (-33554431) 33554432) /\
  m_mul (T 33554432 (-33554431) 33554432) (T 33554431 3 33554429)
    = Ok (T 1125899772624899 (-1125899839733758) 1125899806179328) /\
  m_add (T (2^53 + 1) 0 1) (T 0 0 1) = Ok (T (2^53) 0 1) /\
  m_div (T 1 0 1) (T 0 1 1) = Ok (Some (T (-1) 1 1)) /\ m_add (T 1 0 0) (T 1 1 0) = Raise ValueError /\
  (2^53 < 2^53 + 1 < 2^63)%Z /\ Z.odd (2^53 + 1) = true.
Proof. unfold within. cbn [ta tb tc]. repeat split; try lia; vm_compute; reflexivity. Qed.
