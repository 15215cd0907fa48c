(** Sharper bounds: classes of numbers closed under products without a constant. *)
From Coq Require Import Reals List ZArith Lia Lra Bool.
From Verif Require Import Base.Res Model.Tau Model.Arr Model.IcoScalar Model.DodeScalar Model.Machine Model.Vectors
  Spec.Value Spec.Grid Proofs.ResLemmas Proofs.ValueLemmas Proofs.ScalarLemmas Proofs.Irrational Proofs.MachineLemmas Proofs.GridLemmas.
Import ListNotations.
Local Open Scope Z_scope.

Lemma canon_on w q r a b : irrational w -> canon r -> 0 < q -> (val w r = (IZR a + IZR b * w) / IZR q)%R -> exists k, k * tc r = q /\ k * ta r = a /\ k * tb r = b.
Proof.
  intros Irr (Pc & G) Hq V. destruct r as [x y z]. unfold val in V. cbn [ta tb tc] in *.
  assert (Zz : IZR z <> 0%R) by (apply not_0_IZR; lia). assert (Zq : IZR q <> 0%R) by (apply not_0_IZR; lia).
  assert (E : (IZR (x * q - a * z) + IZR (y * q - b * z) * w = 0)%R).
  { rewrite !minus_IZR, !mult_IZR. apply (Rmult_eq_reg_r (/ (IZR z * IZR q))); [|apply Rinv_neq_0_compat; apply Rmult_integral_contrapositive; auto].
    rewrite Rmult_0_l. replace ((IZR x * IZR q - IZR a * IZR z + (IZR y * IZR q - IZR b * IZR z) * w) * / (IZR z * IZR q))%R with ((IZR x + IZR y * w) / IZR z - (IZR a + IZR b * w) / IZR q)%R by (field; auto). lra. }
  apply Irr in E as [E1 E2].
  assert (D : (z | q)).
  { replace q with (q * Z.gcd (Z.gcd x y) z) by (rewrite G; ring).
    rewrite <- (Z.abs_eq q) at 1 by lia. rewrite <- Z.gcd_mul_mono_l, <- (Z.abs_eq q) at 1 by lia. rewrite Z.abs_eq by lia.
    apply Z.gcd_greatest; [|exists q; ring]. rewrite <- (Z.abs_eq q) by lia. rewrite <- Z.gcd_mul_mono_l. apply Z.gcd_greatest; [exists a|exists b]; lia. }
  destruct D as [k D]. exists k. split; [lia|].
  split; apply (Z.mul_reg_r _ _ z); try lia; rewrite D in *; lia.
Qed.

Section Classes.
Context (w : R) (cls : Z -> Z -> tau -> Prop) (nrm : Z -> Z -> Z -> Prop).
(** cls q K x: x = (a + b w)/q for integers with nrm K a b. *)
Hypothesis cls_iff : forall q K x, cls q K x <-> 0 < q /\ exists k, k * tc x = q /\ nrm K (k * ta x) (k * tb x).
Lemma cls_val q K x : cls q K x -> wf x /\ exists a b, nrm K a b /\ (val w x = (IZR a + IZR b * w) / IZR q)%R.
Proof.
  intros H. apply cls_iff in H as (Hq & k & E & N). assert (W : wf x) by (intros Z; rewrite Z in E; lia). split; [exact W|]. exists (k * ta x), (k * tb x). split; [exact N|].
  assert (k <> 0) by (intros ->; lia). unfold val. rewrite <- E, !mult_IZR. field. split; apply not_0_IZR; assumption.
Qed.
Lemma cls_intro q K r a b : irrational w -> canon r -> 0 < q -> (val w r = (IZR a + IZR b * w) / IZR q)%R -> nrm K a b -> cls q K r.
Proof. intros Irr Cr Hq V N. destruct (canon_on w q r a b Irr Cr Hq V) as (k & E & <- & <-). apply cls_iff. split; [exact Hq|]. exists k. auto. Qed.
Lemma cls_same q K a b m m' : irrational w -> 0 < q -> m = m' -> wp m' (fun r => canon r /\ val w r = (IZR a + IZR b * w) / IZR q)%R -> nrm K a b -> same (cls q K) m m'.
Proof. intros Irr Hq E W N. destruct m' as [r|]; [|destruct W]. destruct W as [C V]. exists r. split; [exact E|]. split; [reflexivity|]. eapply cls_intro; eassumption. Qed.
End Classes.

(** What is needed of a machine arithmetic. *)
Record ring_ok (m : Z) (cls : Z -> Z -> tau -> Prop) (madd mmul add mul : tau -> tau -> res tau) (mdiv div : tau -> tau -> res (option tau)) : Prop := RingOk {
  ro_m : 1 <= m <= 4;
  ro_pos : forall q K x, cls q K x -> 0 < q /\ 0 <= K /\ wf x;
  ro_weaken : forall q K L x, cls q K x -> K <= L -> cls q L x;
  ro_tm1 : cls 1 1 tm1;
  ro_t0 : forall q, 0 < q -> cls q 0 t0;
  ro_add : forall q n K L x y, 0 < n -> cls q K x -> cls (q * n) L y -> q * (q * n) <= cap -> K * (q * n) + L * q <= cap -> same (cls (q * n) (K * n + L)) (madd x y) (add x y);
  ro_mul : forall q p K L x y, cls q K x -> cls p L y -> m * (q * p) <= cap -> m * (K * L) <= cap -> K <= cap -> same (cls (q * p) (K * L)) (mmul x y) (mul x y);
  ro_div : forall q K x y, cls q K x -> cls q K y -> m * (K * K) * q <= cap -> m * q <= cap ->
    (mdiv x y = Ok None /\ div x y = Ok None) \/ (exists Q, 0 < Q <= K * K /\ same (fun o => exists t, o = Some t /\ cls Q (2 * (K * K)) t) (mdiv x y) (div x y))
}.

Definition tnrm (K a b : Z) : Prop := Z.abs a + 2 * Z.abs b <= K.
Definition snrm (K a b : Z) : Prop := (exists v, b = 2 * v) /\ Z.abs a + Z.abs b <= K.
Lemma tau_iff q K x : tau_ring q K x <-> 0 < q /\ exists k, k * tc x = q /\ tnrm K (k * ta x) (k * tb x).
Proof. reflexivity. Qed.
Lemma sqrt3_iff q K x : sqrt3_ring q K x <-> 0 < q /\ exists k, k * tc x = q /\ snrm K (k * ta x) (k * tb x).
Proof.
  split.
  - intros (Hq & k & b & E & Eb & N). split; [exact Hq|]. exists k. split; [exact E|]. split; [exists b; exact Eb|]. lia.
  - intros (Hq & k & E & (b & Eb) & N). split; [exact Hq|]. exists k, b. lia.
Qed.
Lemma nrm_small q K e x : 0 < q -> (exists k, k * tc x = q /\ Z.abs (k * ta x) + e * Z.abs (k * tb x) <= K) -> 0 <= e -> Z.abs (ta x) + e * Z.abs (tb x) <= K /\ Z.abs (tc x) <= q.
Proof.
  intros Hq (k & E & N) He. assert (k <> 0) by (intros ->; lia). rewrite !Z.abs_mul in N. assert (1 <= Z.abs k) by lia. assert (Ec : Z.abs k * Z.abs (tc x) = q) by (rewrite <- Z.abs_mul; lia).
  split; [|nia]. eapply Z.le_trans; [|exact N]. assert (0 <= e * Z.abs (tb x)) by nia. replace (e * (Z.abs k * Z.abs (tb x))) with (Z.abs k * (e * Z.abs (tb x))) by ring. nia.
Qed.

(** Products of the absolute values, as nonnegative variables. *)
Ltac abst x u := pose proof (Z.abs_nonneg x); remember (Z.abs x) as u eqn:Heq; clear Heq.
Lemma tri2 x y X Y : Z.abs x <= X -> Z.abs y <= Y -> Z.abs (x + y) <= X + Y. Proof. lia. Qed.

Lemma tau_small q K x : tau_ring q K x -> Z.abs (ta x) + 2 * Z.abs (tb x) <= K /\ Z.abs (tc x) <= q.
Proof. intros (Hq & H). apply nrm_small; [exact Hq|exact H|lia]. Qed.
Lemma sqrt3_small q K x : sqrt3_ring q K x -> Z.abs (ta x) + Z.abs (tb x) <= K /\ Z.abs (tc x) <= q.
Proof. intros H. apply sqrt3_iff in H as (Hq & k & E & _ & N). destruct (nrm_small q K 1 x Hq) as [H1 H2]; [exists k; split; [exact E|lia]|lia|]. lia. Qed.

(** |x y| for integers in the two norms. *)
Ltac abs_out := repeat match goal with |- context [Z.abs ?x] => let u := fresh "u" in let H := fresh "P" in pose proof (Z.abs_nonneg x) as H; revert H; generalize (Z.abs x); intros u H end.
Lemma tnrm_mul K L a b a' b' : tnrm K a b -> tnrm L a' b' -> tnrm (K * L) (a * a' + b * b') (a * b' + b * a' + b * b').
Proof.
  unfold tnrm. intros H H'. assert (Hm : (Z.abs a + 2 * Z.abs b) * (Z.abs a' + 2 * Z.abs b') <= K * L) by (apply Z.mul_le_mono_nonneg; lia). clear H H'.
  pose proof (Z.abs_triangle (a * a') (b * b')) as T1. pose proof (Z.abs_triangle (a * b' + b * a') (b * b')) as T2. pose proof (Z.abs_triangle (a * b') (b * a')) as T3. rewrite !Z.abs_mul in *.
  revert Hm T1 T2 T3. abs_out. intros. nia.
Qed.
Lemma snrm_mul K L a b a' b' : snrm K a b -> snrm L a' b' -> exists u v, 4 * u = 4 * (a * a') + 3 * (b * b') /\ v = a * b' + b * a' /\ snrm (K * L) u v.
Proof.
  intros [(c & ->) H] [(c' & ->) H']. exists (a * a' + 3 * (c * c')), (a * (2 * c') + 2 * c * a'). split; [ring|]. split; [reflexivity|]. split; [exists (a * c' + c * a'); ring|].
  assert (Hm : (Z.abs a + 2 * Z.abs c) * (Z.abs a' + 2 * Z.abs c') <= K * L) by (apply Z.mul_le_mono_nonneg; lia). clear H H'.
  pose proof (Z.abs_triangle (a * a') (3 * (c * c'))) as T1. pose proof (Z.abs_triangle (a * (2 * c')) (2 * c * a')) as T2. rewrite !Z.abs_mul in *. change (Z.abs 2) with 2 in *. change (Z.abs 3) with 3 in *.
  revert Hm T1 T2. abs_out. intros. nia.
Qed.

Ltac usides x y := let x0 := fresh "x" in let x1 := fresh "x" in let x2 := fresh "x" in let y0 := fresh "y" in let y1 := fresh "y" in let y2 := fresh "y" in
  destruct x as [x0 x1 x2], y as [y0 y1 y2]; cbn [ta tb tc] in *.
Ltac gs := unfold small; match goal with |- Z.abs _ <= _ => idtac end; gb.

(** ** ico2 *)
Lemma tau_add_eq q n K L x y : 0 < n -> tau_ring q K x -> tau_ring (q * n) L y -> q * (q * n) <= cap -> K * (q * n) + L * q <= cap -> m_add x y = add x y.
Proof.
  intros Hn Gx Gy Hq HB. destruct (tau_small _ _ _ Gx) as [N1 C1], (tau_small _ _ _ Gy) as [N2 C2]. pose proof (proj1 Gx). usides x y.
  assert (Z.abs x0 <= K) by lia. assert (Z.abs x1 <= K) by lia. assert (Z.abs y0 <= L) by lia. assert (Z.abs y1 <= L) by lia. assert (0 <= K) by lia. assert (0 <= L) by lia. clear N1 N2.
  assert (0 <= K * (q * n)) by nia. assert (0 <= L * q) by nia. unfold m_add, add. cbn [ta tb tc]. unfold cap in *. uw. apply m_reduce_exact; gs.
Qed.
Lemma tau_mul_eq q p K L x y : tau_ring q K x -> tau_ring p L y -> q * p <= cap -> K * L <= cap -> m_mul x y = mul x y.
Proof.
  intros Gx Gy Hq HB. destruct (tau_small _ _ _ Gx) as [N1 C1], (tau_small _ _ _ Gy) as [N2 C2]. pose proof (proj1 Gx). pose proof (proj1 Gy). usides x y.
  pose proof (tnrm_mul _ _ _ _ _ _ N1 N2) as Nm. assert (Z.abs x0 <= K) by lia. assert (Z.abs x1 <= K) by lia. assert (Z.abs y0 <= L) by lia. assert (Z.abs y1 <= L) by lia. assert (0 <= K) by lia. assert (0 <= L) by lia. clear N1 N2.
  assert (0 <= K * L) by nia. unfold m_mul, mul. cbn [ta tb tc]. unfold cap, tnrm in *.
  assert (S1 : small (x0 * y0 + x1 * y1)) by (unfold small; revert Nm HB; clear; abs_out; intros; lia). assert (S2 : small (x0 * y1 + x1 * y0 + x1 * y1)) by (unfold small; revert Nm HB; clear; abs_out; intros; lia). clear Nm.
  uw. apply m_reduce_exact; [exact S1|exact S2|gs].
Qed.
Lemma tnrm_div K L a b a' b' : tnrm K a b -> tnrm L a' b' ->
  Z.abs (a * a' + a * b' - b * b') <= K * L /\ Z.abs (b * a' - a * b') <= K * L /\ Z.abs (a * a' + a * b' - b * b') + 2 * Z.abs (b * a' - a * b') <= 2 * (K * L) /\ Z.abs (a' * a' - b' * b' + a' * b') <= L * L.
Proof.
  unfold tnrm. intros H H'. assert (Hm : (Z.abs a + 2 * Z.abs b) * (Z.abs a' + 2 * Z.abs b') <= K * L) by (apply Z.mul_le_mono_nonneg; lia).
  assert (Hl : (Z.abs a' + 2 * Z.abs b') * (Z.abs a' + 2 * Z.abs b') <= L * L) by (apply Z.mul_le_mono_nonneg; lia). clear H H'.
  assert (T1 : Z.abs (a * a' + a * b' - b * b') <= Z.abs a * Z.abs a' + Z.abs a * Z.abs b' + Z.abs b * Z.abs b') by bnd1.
  assert (T2 : Z.abs (b * a' - a * b') <= Z.abs b * Z.abs a' + Z.abs a * Z.abs b') by bnd1.
  assert (T3 : Z.abs (a' * a' - b' * b' + a' * b') <= Z.abs a' * Z.abs a' + Z.abs b' * Z.abs b' + Z.abs a' * Z.abs b') by bnd1.
  revert Hm Hl T1 T2 T3. abs_out. intros. nia.
Qed.
Lemma mul_abs_le x y X Y : Z.abs x <= X -> Z.abs y <= Y -> Z.abs (x * y) <= X * Y.
Proof. apply babs_mul. Qed.
Lemma sq_facts K q : 0 <= K -> 0 < q -> 0 <= K * q /\ 0 <= K * K * q /\ K * q <= K * K * q /\ K * K <= K * K * q.
Proof. intros H H'. assert (0 <= K * q) by nia. assert (0 <= K * K) by nia. assert (K * K <= K * K * q) by nia. assert (K <= K * K) by nia. repeat split; nia. Qed.
Lemma tau_div_eq q K x y : tau_ring q K x -> tau_ring q K y -> K * K * q <= cap -> m_div x y = div x y.
Proof.
  intros Gx Gy HB. destruct (tau_small _ _ _ Gx) as [N1 C1], (tau_small _ _ _ Gy) as [N2 C2]. pose proof (proj1 Gx) as Pq. usides x y.
  assert (A0 : Z.abs x0 <= K) by lia. assert (A1 : Z.abs x1 <= K) by lia. assert (B0 : Z.abs y0 <= K) by lia. assert (B1 : Z.abs y1 <= K) by lia. assert (S : Z.abs (- x0 + x1) <= K) by lia. assert (PK : 0 <= K) by lia.
  destruct (sq_facts K q PK Pq) as (F1 & F2 & F3 & F4).
  destruct (tnrm_div _ _ _ _ _ _ N1 N2) as (D1 & D2 & _ & D3). clear N1 N2. unfold cap in *. assert (HK : K * q <= 2^53) by (exact (Z.le_trans _ _ _ F3 HB)).
  pose proof (mul_abs_le _ _ _ _ D1 C2) as E1. pose proof (mul_abs_le _ _ _ _ D2 C2) as E2. pose proof (mul_abs_le _ _ _ _ D3 C1) as E3.
  pose proof (mul_abs_le _ _ _ _ S C2) as E4. pose proof (mul_abs_le _ _ _ _ A0 C2) as E5. pose proof (mul_abs_le _ _ _ _ A1 C2) as E6. pose proof (mul_abs_le _ _ _ _ B0 C1) as E7. pose proof (mul_abs_le _ _ _ _ B1 C1) as E8.
  apply (fun h => Z.le_trans _ _ _ h HB) in E1, E2, E3. apply (fun h => Z.le_trans _ _ _ h HK) in E4, E5, E6, E7, E8.
  unfold m_div, div. cbn [ta tb tc].
  assert (U1 : wmul (wsub (wadd (wmul x0 y0) (wmul x0 y1)) (wmul x1 y1)) y2 = (x0 * y0 + x0 * y1 - x1 * y1) * y2) by (clear E1 E2 E3 E4 E5 E6 E7 E8 D1 D2 D3; uw; reflexivity).
  assert (U2 : wmul (wsub (wmul x1 y0) (wmul x0 y1)) y2 = (x1 * y0 - x0 * y1) * y2) by (clear E1 E2 E3 E4 E5 E6 E7 E8 D1 D2 D3; uw; reflexivity).
  assert (U3 : wmul (wadd (wsub (wmul y0 y0) (wmul y1 y1)) (wmul y0 y1)) x2 = (y0 * y0 - y1 * y1 + y0 * y1) * x2) by (clear E1 E2 E3 E4 E5 E6 E7 E8 D1 D2 D3; uw; reflexivity).
  assert (U4 : wmul (wadd (wneg x0) x1) y2 = (- x0 + x1) * y2) by (clear E1 E2 E3 E4 E5 E6 E7 E8 D1 D2 D3; uw; reflexivity).
  assert (V : forall a b, Z.abs (a * b) <= 2^53 -> wmul a b = a * b) by (intros a b H1; unfold wmul; apply wrap64_abs; eapply Z.le_trans; [exact H1|vm_compute; discriminate]).
  rewrite U1, U2, U3, U4, (V x0 y2), (V x1 y2), (V y0 x2), (V y1 x2) by assumption.
  destruct (_ && _); [reflexivity|]. destruct (_ && _); [reflexivity|].
  destruct (negb _); [destruct (negb _)|]; apply m_div_reduce_exact; assumption.
Qed.
Lemma tau_val q K x : tau_ring q K x -> wf x /\ exists a b, tnrm K a b /\ (val TAU x = (IZR a + IZR b * TAU) / IZR q)%R.
Proof. apply (cls_val TAU tau_ring tnrm tau_iff). Qed.

Lemma tau_ring_ok : ring_ok 1 tau_ring m_add m_mul add mul m_div div.
Proof.
  split.
  - lia.
  - intros q K x G. split; [exact (proj1 G)|]. split; [destruct G as (_ & k & _ & G); lia|exact (proj1 (tau_val _ _ _ G))].
  - intros q K L x (Hq & k & E & N) H. split; [exact Hq|]. exists k. split; [exact E|lia].
  - split; [lia|]. exists 1. cbn. lia.
  - intros q Hq. split; [exact Hq|]. exists q. unfold t0. cbn [ta tb tc]. rewrite Z.mul_0_r. cbn. lia.
  - intros q n K L x y Hn Gx Gy H1 H2. destruct (tau_val _ _ _ Gx) as (Wx & a & b & Na & Ex), (tau_val _ _ _ Gy) as (Wy & c & d & Nc & Ey). pose proof (proj1 Gx).
    apply (cls_same TAU tau_ring tnrm tau_iff (q * n) _ (a * n + c) (b * n + d)); [exact TAU_irrational|nia|apply (tau_add_eq q n K L); assumption| |].
    + eapply wp_mono; [apply (ao_add _ _ _ ico_arith); assumption|]. intros r [Cr Vr]. split; [exact Cr|]. rewrite Vr, Ex, Ey, !plus_IZR, !mult_IZR. field. split; apply not_0_IZR; lia.
    + unfold tnrm in *. assert (Z.abs (a * n + c) <= Z.abs a * n + Z.abs c) by (pose proof (Z.abs_triangle (a * n) c); rewrite Z.abs_mul in *; lia). assert (Z.abs (b * n + d) <= Z.abs b * n + Z.abs d) by (pose proof (Z.abs_triangle (b * n) d); rewrite Z.abs_mul in *; lia). nia.
  - intros q p K L x y Gx Gy H1 H2 _. rewrite Z.mul_1_l in *. destruct (tau_val _ _ _ Gx) as (Wx & a & b & Na & Ex), (tau_val _ _ _ Gy) as (Wy & c & d & Nc & Ey). pose proof (proj1 Gx). pose proof (proj1 Gy).
    apply (cls_same TAU tau_ring tnrm tau_iff (q * p) _ (a * c + b * d) (a * d + b * c + b * d)); [exact TAU_irrational|nia|apply (tau_mul_eq q p K L); assumption| |apply tnrm_mul; assumption].
    eapply wp_mono; [apply (ao_mul _ _ _ ico_arith); assumption|]. intros r [Cr Vr]. split; [exact Cr|]. rewrite Vr, Ex, Ey, !plus_IZR, !mult_IZR. field [TAU_sq]. split; apply not_0_IZR; lia.
  - intros q K x y Gx Gy H _. rewrite Z.mul_1_l in H. rewrite (tau_div_eq q K x y Gx Gy H).
    destruct (tau_val _ _ _ Gx) as (Wx & a & b & Na & Ex), (tau_val _ _ _ Gy) as (Wy & c & d & Nc & Ey). pose proof (proj1 Gx) as Pq.
    pose proof (div_spec x y Wx Wy) as S. destruct ((ta y =? 0) && (tb y =? 0)) eqn:E0; [left; auto|right].
    assert (Ny : val TAU y <> 0%R). { intros Z. apply (val_zero_iff TAU y TAU_irrational Wy) in Z as [Z1 Z2]. rewrite Z1, Z2 in E0. discriminate. }
    assert (Ncd : c <> 0 \/ d <> 0). { destruct (Z.eq_dec c 0) as [->|]; [|auto]. destruct (Z.eq_dec d 0) as [->|]; [|auto]. exfalso. apply Ny. rewrite Ey. field. apply not_0_IZR. lia. }
    pose proof (norm_tau_nonzero c d Ncd) as Nn. set (n := c * c - d * d + c * d) in *. destruct (tnrm_div _ _ _ _ _ _ Na Nc) as (_ & _ & D1 & D2). fold n in D2.
    exists (Z.abs n). split; [lia|]. destruct (div x y) as [o|]; [|destruct S]. destruct S as (r & -> & Cr & Vr). exists (Some r). split; [reflexivity|]. split; [reflexivity|]. exists r. split; [reflexivity|].
    assert (Nr : (IZR c + IZR d * TAU <> 0)%R). { intros Z. apply Ny. rewrite Ey, Z. unfold Rdiv. ring. }
    assert (Nn' : (IZR n <> 0)%R) by (apply not_0_IZR; exact Nn).
    assert (En : (IZR n = (IZR c + IZR d * TAU) * (IZR c + IZR d - IZR d * TAU))%R) by (unfold n; rewrite !plus_IZR, !minus_IZR, !mult_IZR; ring [TAU_sq]).
    assert (Vr' : (val TAU r = (IZR (a * c + a * d - b * d) + IZR (b * c - a * d) * TAU) / IZR n)%R).
    { rewrite Vr, Ex, Ey. apply (Rmult_eq_reg_r (IZR n)); [|exact Nn']. transitivity ((IZR a + IZR b * TAU) * (IZR c + IZR d - IZR d * TAU))%R.
      - rewrite En. field. split; [apply not_0_IZR; lia|exact Nr].
      - rewrite minus_IZR, plus_IZR, minus_IZR, !mult_IZR. field_simplify; [|exact Nn']. ring [TAU_sq]. }
    destruct (Z.abs_spec n) as [[Pn Ea]|[Pn Ea]]; rewrite Ea.
    + apply (cls_intro TAU tau_ring tnrm tau_iff n _ r (a * c + a * d - b * d) (b * c - a * d)); [exact TAU_irrational|exact Cr|lia|exact Vr'|exact D1].
    + apply (cls_intro TAU tau_ring tnrm tau_iff (- n) _ r (- (a * c + a * d - b * d)) (- (b * c - a * d))); [exact TAU_irrational|exact Cr|lia| |unfold tnrm; rewrite !Z.abs_opp; exact D1].
      rewrite Vr', !opp_IZR. field. exact Nn'.
Qed.

(** ** dode2 *)
Lemma sqrt3_add_eq q n K L x y : 0 < n -> sqrt3_ring q K x -> sqrt3_ring (q * n) L y -> q * (q * n) <= cap -> K * (q * n) + L * q <= cap -> md_add x y = dadd x y.
Proof.
  intros Hn Gx Gy Hq HB. destruct (sqrt3_small _ _ _ Gx) as [N1 C1], (sqrt3_small _ _ _ Gy) as [N2 C2]. pose proof (proj1 Gx). usides x y.
  assert (Z.abs x0 <= K) by lia. assert (Z.abs x1 <= K) by lia. assert (Z.abs y0 <= L) by lia. assert (Z.abs y1 <= L) by lia. assert (0 <= K) by lia. assert (0 <= L) by lia. clear N1 N2.
  assert (0 <= K * (q * n)) by nia. assert (0 <= L * q) by nia. unfold md_add, dadd. cbn [ta tb tc]. unfold cap in *. uw. apply m_reduce_d_exact; gs.
Qed.
Lemma s_prod K L a b a' b' : Z.abs a + Z.abs b <= K -> Z.abs a' + Z.abs b' <= L ->
  Z.abs (4 * a * a' + 3 * b * b') <= 4 * (K * L) /\ Z.abs (4 * a * a' - 3 * b * b') <= 4 * (K * L) /\ Z.abs (a * b' + b * a') <= K * L /\ Z.abs (a * b' - b * a') <= K * L /\ Z.abs (4 * (a' * a') - 3 * (b' * b')) <= 4 * (L * L).
Proof.
  intros H H'. assert (Hm : (Z.abs a + Z.abs b) * (Z.abs a' + Z.abs b') <= K * L) by (apply Z.mul_le_mono_nonneg; lia). assert (Hl : (Z.abs a' + Z.abs b') * (Z.abs a' + Z.abs b') <= L * L) by (apply Z.mul_le_mono_nonneg; lia). clear H H'.
  assert (T1 : Z.abs (4 * a * a' + 3 * b * b') <= 4 * Z.abs a * Z.abs a' + 3 * Z.abs b * Z.abs b') by bnd1.
  assert (T2 : Z.abs (4 * a * a' - 3 * b * b') <= 4 * Z.abs a * Z.abs a' + 3 * Z.abs b * Z.abs b') by bnd1.
  assert (T3 : Z.abs (a * b' + b * a') <= Z.abs a * Z.abs b' + Z.abs b * Z.abs a') by bnd1.
  assert (T4 : Z.abs (a * b' - b * a') <= Z.abs a * Z.abs b' + Z.abs b * Z.abs a') by bnd1.
  assert (T5 : Z.abs (4 * (a' * a') - 3 * (b' * b')) <= 4 * (Z.abs a' * Z.abs a') + 3 * (Z.abs b' * Z.abs b')) by bnd1.
  revert Hm Hl T1 T2 T3 T4 T5. abs_out. intros. repeat split; nia.
Qed.
Lemma sqrt3_mul_eq q p K L x y : sqrt3_ring q K x -> sqrt3_ring p L y -> 4 * (q * p) <= cap -> 4 * (K * L) <= cap -> K <= cap -> md_mul x y = dmul x y.
Proof.
  intros Gx Gy Hq HB HK. destruct (sqrt3_small _ _ _ Gx) as [N1 C1], (sqrt3_small _ _ _ Gy) as [N2 C2]. pose proof (proj1 Gx). pose proof (proj1 Gy). usides x y.
  destruct (s_prod _ _ _ _ _ _ N1 N2) as (S1 & _ & S2 & _ & _).
  assert (Z.abs x0 <= K) by (clear - N1; lia). assert (Z.abs x1 <= K) by (clear - N1; lia). assert (Z.abs y0 <= L) by (clear - N2; lia). assert (Z.abs y1 <= L) by (clear - N2; lia). assert (0 <= K) by (clear - N1; lia). assert (0 <= L) by (clear - N2; lia). clear N1 N2.
  assert (0 <= K * L) by (clear - H5 H6; nia). assert (q <= q * p) by (clear - H H0; nia). unfold md_mul, dmul. cbn [ta tb tc]. unfold cap in *.
  assert (S3 : small (4 * x0 * y0 + 3 * x1 * y1)) by (unfold small; eapply Z.le_trans; eassumption).
  assert (S4 : small (4 * (x0 * y1 + x1 * y0))). { unfold small. rewrite Z.abs_mul. change (Z.abs 4) with 4. eapply Z.le_trans; [|exact HB]. apply Z.mul_le_mono_nonneg_l; [lia|exact S2]. }
  clear S1 S2. uw. replace (4 * x0 * y0 + 3 * x1 * y1) with (4 * x0 * y0 + 3 * x1 * y1) by ring. apply m_reduce_d_exact; first [exact S3|exact S4|gs|idtac].
Qed.
Lemma sqrt3_div_eq q K x y : sqrt3_ring q K x -> sqrt3_ring q K y -> 4 * (K * K) * q <= cap -> 4 * q <= cap -> md_div x y = ddiv x y.
Proof.
  intros Gx Gy HB HQ. destruct (sqrt3_small _ _ _ Gx) as [N1 C1], (sqrt3_small _ _ _ Gy) as [N2 C2]. pose proof (proj1 Gx) as Pq. usides x y.
  assert (A0 : Z.abs x0 <= K) by lia. assert (A1 : Z.abs x1 <= K) by lia. assert (B0 : Z.abs y0 <= K) by lia. assert (B1 : Z.abs y1 <= K) by lia. assert (PK : 0 <= K) by lia.
  destruct (sq_facts K q PK Pq) as (F1 & F2 & F3 & F4). destruct (s_prod _ _ _ _ _ _ N1 N2) as (_ & D1 & _ & D2 & D3). clear N1 N2. unfold cap in *.
  assert (HK : 4 * (K * q) <= 2^53) by (clear - F3 HB; lia). assert (H2 : 4 * (K * K) <= 2^53) by (clear - F4 HB; lia).
  assert (E1 : Z.abs (y2 * (4 * x0 * y0 - 3 * x1 * y1)) <= 2^53) by (eapply Z.le_trans; [apply mul_abs_le; [exact C2|exact D1]|clear - HB; lia]).
  assert (E2 : Z.abs (-4 * y2 * (x0 * y1 - x1 * y0)) <= 2^53). { rewrite Z.abs_mul, Z.abs_mul. change (Z.abs (-4)) with 4. eapply Z.le_trans; [apply Z.mul_le_mono_nonneg; [apply Z.mul_nonneg_nonneg; [lia|apply Z.abs_nonneg]| |apply Z.abs_nonneg|exact D2]|]; [apply Z.mul_le_mono_nonneg_l; [lia|exact C2]|]. clear - HB. lia. }
  assert (E3 : Z.abs (x2 * (4 * (y0 * y0) - 3 * (y1 * y1))) <= 2^53) by (eapply Z.le_trans; [apply mul_abs_le; [exact C1|exact D3]|clear - HB; lia]).
  clear D1 D2.
  assert (V3 : forall k z t, 0 <= k <= 4 -> Z.abs z <= K -> Z.abs t <= q -> Z.abs (k * z * t) <= 2^53).
  { intros k z t Hk Hz Ht. rewrite !Z.abs_mul, (Z.abs_eq k) by lia. rewrite <- Z.mul_assoc. pose proof (Z.abs_nonneg z). pose proof (Z.abs_nonneg t). assert (Hm : Z.abs z * Z.abs t <= K * q) by (apply Z.mul_le_mono_nonneg; assumption). assert (Hn : 0 <= Z.abs z * Z.abs t) by (apply Z.mul_nonneg_nonneg; assumption). eapply Z.le_trans; [apply (Z.mul_le_mono_nonneg k 4); [| |exact Hn|exact Hm]; lia|exact HK]. }
  assert (V4 : forall k z t, 0 <= k <= 4 -> Z.abs z <= K -> Z.abs t <= q -> Z.abs (k * t * z) <= 2^53) by (intros k z t Hk Hz Ht; rewrite <- Z.mul_assoc, (Z.mul_comm t), Z.mul_assoc; apply V3; assumption).
  assert (V2 : forall z t, Z.abs z <= K -> Z.abs t <= q -> Z.abs (z * t) <= 2^53) by (intros z t Hz Ht; rewrite <- (Z.mul_1_l z); apply V3; [lia|assumption|assumption]).
  unfold md_div, ddiv. cbn [ta tb tc].
  assert (U1 : wmul y2 (wsub (wmul (wmul 4 x0) y0) (wmul (wmul 3 x1) y1)) = y2 * (4 * x0 * y0 - 3 * x1 * y1)) by (clear E1 E2 E3 V3 V4 V2 D3; uw; reflexivity).
  assert (U2 : wmul (wmul (-4) y2) (wsub (wmul x0 y1) (wmul x1 y0)) = -4 * y2 * (x0 * y1 - x1 * y0)).
  { unfold wadd, wsub, wmul, wneg. rewrite (wrap64_abs (-4 * y2)). 2:{ rewrite Z.abs_mul. change (Z.abs (-4)) with 4. clear - C2 HQ. lia. }
    assert (E2' : Z.abs (-4 * y2 * (x0 * y1 - x1 * y0)) <= 2^62) by (eapply Z.le_trans; [exact E2|vm_compute; discriminate]). clear E1 E2 E3 V3 V4 V2 D3 U1.
    rewrite (wrap64_abs (x0 * y1)), (wrap64_abs (x1 * y0)) by (clear E2'; gb). rewrite (wrap64_abs (x0 * y1 - x1 * y0)) by (clear E2'; gb). apply wrap64_abs. exact E2'. }
  assert (U3 : wsub (wmul 4 (wmul y0 y0)) (wmul 3 (wmul y1 y1)) = 4 * (y0 * y0) - 3 * (y1 * y1)) by (clear E1 E2 E3 V3 V4 V2 D3 U1 U2; uw; reflexivity).
  assert (V : forall a b, Z.abs (a * b) <= 2^53 -> wmul a b = a * b) by (intros a b H1; unfold wmul; apply wrap64_abs; eapply Z.le_trans; [exact H1|vm_compute; discriminate]).
  assert (W1 : forall k z, 0 <= k <= 4 -> Z.abs z <= K -> wmul k z = k * z).
  { intros k z Hk Hz. apply V. rewrite Z.abs_mul, (Z.abs_eq k) by lia. eapply Z.le_trans; [apply (Z.mul_le_mono_nonneg k 4); [| |apply Z.abs_nonneg|exact Hz]; lia|]. clear - HK Pq PK. nia. }
  assert (W2 : forall k z, 0 <= k <= 4 -> Z.abs z <= q -> wmul k z = k * z).
  { intros k z Hk Hz. apply V. rewrite Z.abs_mul, (Z.abs_eq k) by lia. eapply Z.le_trans; [apply (Z.mul_le_mono_nonneg k 4); [| |apply Z.abs_nonneg|exact Hz]; lia|exact HQ]. }
  destruct ((y0 =? 0) && (y1 =? 0)) eqn:Ey; [reflexivity|]. destruct ((x0 =? 0) && (x1 =? 0)); [reflexivity|].
  destruct (negb (y1 =? 0)) eqn:Ey1; [destruct (negb (y0 =? 0)) eqn:Ey0|].
  - cbv zeta. rewrite U1, U2, U3. assert (Nz : 4 * (y0 * y0) - 3 * (y1 * y1) <> 0) by (apply norm_sin_nonzero; clear - Ey1; lia). rewrite (proj2 (Z.eqb_neq _ _) Nz). cbn [negb]. rewrite (V _ _ E3). apply md_div_reduce_exact; assumption.
  - rewrite (W1 3 x1), (W1 4 x0), (W2 3 x2) by (assumption || lia). rewrite (V (3 * x1) y2), (V (4 * x0) y2), (V (3 * x2) y1) by (first [solve [apply V3; (assumption || lia)]|apply V4; (assumption || lia)]). apply md_div_reduce_exact; unfold small; (first [solve [apply V3; (assumption || lia)]|apply V4; (assumption || lia)]).
  - rewrite !V by (apply V2; assumption). apply md_div_reduce_exact; unfold small; apply V2; assumption.
Qed.
Lemma sqrt3_val q K x : sqrt3_ring q K x -> wf x /\ exists a b, snrm K a b /\ (val SIN x = (IZR a + IZR b * SIN) / IZR q)%R.
Proof. apply (cls_val SIN sqrt3_ring snrm sqrt3_iff). Qed.

Lemma sqrt3_ring_ok : ring_ok 4 sqrt3_ring md_add md_mul dadd dmul md_div ddiv.
Proof.
  pose proof (ao_irr _ _ _ dode_arith) as Irr. split.
  - lia.
  - intros q K x G. split; [exact (proj1 G)|]. split; [destruct G as (_ & k & b & _ & _ & G); lia|exact (proj1 (sqrt3_val _ _ _ G))].
  - intros q K L x (Hq & k & b & E & Eb & N) H. split; [exact Hq|]. exists k, b. split; [exact E|]. split; [exact Eb|lia].
  - split; [lia|]. exists 1, 0. cbn. lia.
  - intros q Hq. split; [exact Hq|]. exists q, 0. unfold t0. cbn [ta tb tc]. rewrite Z.mul_0_r. cbn. lia.
  - intros q n K L x y Hn Gx Gy H1 H2. destruct (sqrt3_val _ _ _ Gx) as (Wx & a & b & [(b' & Eb) Na] & Ex), (sqrt3_val _ _ _ Gy) as (Wy & c & d & [(d' & Ed) Nc] & Ey). pose proof (proj1 Gx).
    apply (cls_same SIN sqrt3_ring snrm sqrt3_iff (q * n) _ (a * n + c) (b * n + d)); [exact Irr|nia|apply (sqrt3_add_eq q n K L); assumption| |].
    + eapply wp_mono; [apply (ao_add _ _ _ dode_arith); assumption|]. intros r [Cr Vr]. split; [exact Cr|]. rewrite Vr, Ex, Ey, !plus_IZR, !mult_IZR. field. split; apply not_0_IZR; lia.
    + split; [exists (b' * n + d'); rewrite Eb, Ed; ring|]. assert (Z.abs (a * n + c) <= Z.abs a * n + Z.abs c) by (pose proof (Z.abs_triangle (a * n) c); rewrite Z.abs_mul in *; lia). assert (Z.abs (b * n + d) <= Z.abs b * n + Z.abs d) by (pose proof (Z.abs_triangle (b * n) d); rewrite Z.abs_mul in *; lia).
      assert ((Z.abs a + Z.abs b) * n <= K * n) by (apply Z.mul_le_mono_nonneg_r; [lia|exact Na]). clear - Nc H0 H3 H4. lia.
  - intros q p K L x y Gx Gy H1 H2 H3. destruct (sqrt3_val _ _ _ Gx) as (Wx & a & b & Na & Ex), (sqrt3_val _ _ _ Gy) as (Wy & c & d & Nc & Ey). pose proof (proj1 Gx). pose proof (proj1 Gy).
    destruct (snrm_mul _ _ _ _ _ _ Na Nc) as (u & v & Eu & Ev & Nuv).
    apply (cls_same SIN sqrt3_ring snrm sqrt3_iff (q * p) _ u v); [exact Irr|nia|apply (sqrt3_mul_eq q p K L); assumption| |exact Nuv].
    eapply wp_mono; [apply (ao_mul _ _ _ dode_arith); assumption|]. intros r [Cr Vr]. split; [exact Cr|].
    assert (Eu' : (4 * IZR u = 4 * (IZR a * IZR c) + 3 * (IZR b * IZR d))%R) by (rewrite <- !mult_IZR, <- plus_IZR; apply f_equal; exact Eu).
    assert (IZR q <> 0)%R by (apply not_0_IZR; lia). assert (IZR p <> 0)%R by (apply not_0_IZR; lia).
    rewrite Vr, Ex, Ey, Ev, plus_IZR, !mult_IZR.
    transitivity ((IZR a * IZR c + IZR b * IZR d * (SIN * SIN) + (IZR a * IZR d + IZR b * IZR c) * SIN) / (IZR q * IZR p))%R; [field; auto|]. rewrite SIN_sq. replace (IZR u) with (IZR a * IZR c + IZR b * IZR d * (3 / 4))%R by lra. field; auto.
  - intros q K x y Gx Gy H H4. rewrite (sqrt3_div_eq q K x y Gx Gy H H4).
    destruct (sqrt3_val _ _ _ Gx) as (Wx & a & b & [(b' & Eb) Na] & Ex), (sqrt3_val _ _ _ Gy) as (Wy & c & d & [(d' & Ed) Nc] & Ey). pose proof (proj1 Gx) as Pq.
    pose proof (ddiv_spec x y Wx Wy) as S. destruct ((ta y =? 0) && (tb y =? 0)) eqn:E0; [left; auto|right].
    assert (Ny : val SIN y <> 0%R). { intros Z. apply (val_zero_iff SIN y Irr Wy) in Z as [Z1 Z2]. rewrite Z1, Z2 in E0. discriminate. }
    assert (Ncd : c <> 0 \/ d <> 0). { destruct (Z.eq_dec c 0) as [->|]; [|auto]. destruct (Z.eq_dec d 0) as [->|]; [|auto]. exfalso. apply Ny. rewrite Ey. field. apply not_0_IZR. lia. }
    pose proof (norm_sin_nonzero c d Ncd) as Nn4. set (n := c * c - 3 * (d' * d')). assert (Nn : n <> 0) by (unfold n; intros Z; apply Nn4; rewrite Ed; clear - Z; lia).
    set (u := a * c - 3 * (b' * d')). set (v := b * c - a * d).
    assert (Hm : (Z.abs a + Z.abs b) * (Z.abs c + Z.abs d) <= K * K) by (apply Z.mul_le_mono_nonneg; lia). assert (Hl : (Z.abs c + Z.abs d) * (Z.abs c + Z.abs d) <= K * K) by (apply Z.mul_le_mono_nonneg; lia).
    assert (Ab : Z.abs b = 2 * Z.abs b') by (rewrite Eb, Z.abs_mul; reflexivity). assert (Ad : Z.abs d = 2 * Z.abs d') by (rewrite Ed, Z.abs_mul; reflexivity).
    assert (D1 : Z.abs u + Z.abs v <= 2 * (K * K)).
    { assert (T1 : Z.abs u <= Z.abs a * Z.abs c + 3 * (Z.abs b' * Z.abs d')) by (unfold u; bnd1). assert (T2 : Z.abs v <= Z.abs b * Z.abs c + Z.abs a * Z.abs d) by (unfold v; bnd1).
      rewrite Ab, Ad in *. clear - T1 T2 Hm. revert T1 T2 Hm. abs_out. intros. nia. }
    assert (D2 : Z.abs n <= K * K). { assert (T1 : Z.abs n <= Z.abs c * Z.abs c + 3 * (Z.abs d' * Z.abs d')) by (unfold n; bnd1). rewrite Ad in *. clear - T1 Hl. revert T1 Hl. abs_out. intros. nia. }
    exists (Z.abs n). split; [lia|]. destruct (ddiv x y) as [o|]; [|destruct S]. destruct S as (r & -> & Cr & Vr). exists (Some r). split; [reflexivity|]. split; [reflexivity|]. exists r. split; [reflexivity|].
    assert (Nr : (IZR c + IZR d * SIN <> 0)%R). { intros Z. apply Ny. rewrite Ey, Z. unfold Rdiv. ring. }
    assert (Nn' : (IZR n <> 0)%R) by (apply not_0_IZR; exact Nn).
    assert (Rb : IZR b = (2 * IZR b')%R) by (rewrite Eb, mult_IZR; reflexivity). assert (Rd : IZR d = (2 * IZR d')%R) by (rewrite Ed, mult_IZR; reflexivity).
    assert (En : (IZR n = (IZR c + IZR d * SIN) * (IZR c - IZR d * SIN))%R).
    { unfold n. rewrite minus_IZR, !mult_IZR. transitivity (IZR c * IZR c - IZR d * IZR d * (SIN * SIN))%R; [|ring]. rewrite SIN_sq, Rd. field. }
    assert (Vr' : (val SIN r = (IZR u + IZR v * SIN) / IZR n)%R).
    { rewrite Vr, Ex, Ey. apply (Rmult_eq_reg_r (IZR n)); [|exact Nn']. transitivity ((IZR a + IZR b * SIN) * (IZR c - IZR d * SIN))%R.
      - rewrite En. field. split; [apply not_0_IZR; lia|exact Nr].
      - transitivity (IZR u + IZR v * SIN)%R; [|field; exact Nn']. unfold u, v. rewrite !minus_IZR, !mult_IZR. transitivity (IZR a * IZR c - IZR b * IZR d * (SIN * SIN) + (IZR b * IZR c - IZR a * IZR d) * SIN)%R; [ring|]. rewrite SIN_sq, Rb, Rd. field. }
    assert (Ev : exists z, v = 2 * z) by (exists (b' * c - a * d'); unfold v; rewrite Eb, Ed; ring).
    destruct (Z.abs_spec n) as [[Pn Ea]|[Pn Ea]]; rewrite Ea.
    + apply (cls_intro SIN sqrt3_ring snrm sqrt3_iff n _ r u v); [exact Irr|exact Cr|lia|exact Vr'|split; assumption].
    + apply (cls_intro SIN sqrt3_ring snrm sqrt3_iff (- n) _ r (- u) (- v)); [exact Irr|exact Cr|lia| |split; [destruct Ev as [z Ev]; exists (- z); clear - Ev; lia|rewrite !Z.abs_opp; exact D1]].
      rewrite Vr', !opp_IZR. field. exact Nn'.
Qed.
