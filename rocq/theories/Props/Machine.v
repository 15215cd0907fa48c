(** Machine arithmetic of ico2 and dode2 scalars: C04. *)
From Coq Require Import Reals List ZArith Lia Lra Bool.
From Verif Require Import Base.Res Model.Tau Model.Machine Spec.Value Spec.RVec Spec.Shape.
From Verif Require Import Proofs.P_Machine.
Import ListNotations.
Local Open Scope R_scope.

(** C04: within the bound the int64/float64 computation returns the canonical triple
    of the exact result. *)
Theorem C04_ico_add_exact : forall a b, wf a -> wf b -> within (2^26) a -> within (2^26) b ->
  evals TAU (m_add a b) (val TAU a + val TAU b).
Proof. exact L_C04_ico_add_exact. Qed.
Print Assumptions C04_ico_add_exact.

Theorem C04_ico_sub_exact : forall a b, wf a -> wf b -> within (2^26) a -> within (2^26) b ->
  evals TAU (m_sub a b) (val TAU a - val TAU b).
Proof. exact L_C04_ico_sub_exact. Qed.
Print Assumptions C04_ico_sub_exact.

Theorem C04_ico_mul_exact : forall a b, wf a -> wf b -> within (2^25) a -> within (2^25) b ->
  evals TAU (m_mul a b) (val TAU a * val TAU b).
Proof. exact L_C04_ico_mul_exact. Qed.
Print Assumptions C04_ico_mul_exact.

Theorem C04_ico_div_exact : forall a b, wf a -> wf b -> within (2^17) a -> within (2^17) b -> val TAU b <> 0 ->
  exists r, m_div a b = Ok (Some r) /\ canon r /\ val TAU r = val TAU a / val TAU b.
Proof. exact L_C04_ico_div_exact. Qed.
Print Assumptions C04_ico_div_exact.

Theorem C04_dode_add_exact : forall a b, wf a -> wf b -> within (2^26) a -> within (2^26) b ->
  evals SIN (md_add a b) (val SIN a + val SIN b).
Proof. exact L_C04_dode_add_exact. Qed.
Print Assumptions C04_dode_add_exact.

Theorem C04_dode_sub_exact : forall a b, wf a -> wf b -> within (2^24) a -> within (2^24) b ->
  evals SIN (md_sub a b) (val SIN a - val SIN b).
Proof. exact L_C04_dode_sub_exact. Qed.
Print Assumptions C04_dode_sub_exact.

Theorem C04_dode_mul_exact : forall a b, wf a -> wf b -> within (2^25) a -> within (2^25) b ->
  evals SIN (md_mul a b) (val SIN a * val SIN b).
Proof. exact L_C04_dode_mul_exact. Qed.
Print Assumptions C04_dode_mul_exact.

Theorem C04_dode_div_exact : forall a b, wf a -> wf b -> within (2^16) a -> within (2^16) b -> val SIN b <> 0 ->
  exists r, md_div a b = Ok (Some r) /\ canon r /\ val SIN r = val SIN a / val SIN b.
Proof. exact L_C04_dode_div_exact. Qed.
Print Assumptions C04_dode_div_exact.

(** Beyond the bound: an int64 product that overflows gives a well-formed wrong
    triple, and no error. *)
Theorem C04_overflow_wrong : exists a b r, wf a /\ wf b /\ int64 a /\ int64 b /\
  m_mul a b = Ok r /\ canon r /\ val TAU r <> val TAU a * val TAU b.
Proof. exact L_C04_overflow_wrong. Qed.
Print Assumptions C04_overflow_wrong.

(** Float rounding alone, without any overflow: adding zero to ANY odd integer
    between 2^53 and 2^63 returns a canonical triple denoting a different number. *)
Theorem C04_rounding_wrong : forall n, (2^53 < n < 2^63)%Z -> Z.odd n = true ->
  exists r r', m_add (T n 0 1) (T 0 0 1) = Ok r /\ canon r /\ val TAU r <> IZR n /\
               md_add (T n 0 1) (T 0 0 1) = Ok r' /\ canon r' /\ val SIN r' <> IZR n.
Proof. exact L_C04_rounding_wrong. Qed.
Print Assumptions C04_rounding_wrong.

Example C04_ex : within (2^25) (T 33554432 (-33554431) 33554432) /\
  m_mul (T 33554432 (-33554431) 33554432) (T 33554431 3 33554429)
    = Ok (T 1125899772624899 (-1125899839733758) 1125899806179328) /\
  m_add (T (2^53 + 1) 0 1) (T 0 0 1) = Ok (T (2^53) 0 1) /\
  m_div (T 1 0 1) (T 0 1 1) = Ok (Some (T (-1) 1 1)) /\ m_add (T 1 0 0) (T 1 1 0) = Raise ValueError /\
  (2^53 < 2^53 + 1 < 2^63)%Z /\ Z.odd (2^53 + 1) = true.
Proof. exact E_C04_ex. Qed.
