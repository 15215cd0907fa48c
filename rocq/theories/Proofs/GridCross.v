(** Crossing points on the machine. *)
From Coq Require Import Reals List ZArith Lia Bool.
From Verif Require Import Base.Res Model.Tau Model.Arr Model.IcoScalar Model.DodeScalar Model.Vectors Model.IcoMath1 Model.DodeMath1 Model.Num Model.IcoNumeric Model.IcoIntersect Model.DodeIntersect
  Model.Machine Model.MachineVec Model.MachineCross Spec.Value Spec.Grid Proofs.ResLemmas Proofs.ScalarLemmas Proofs.GridLemmas Proofs.GridRing.
Import ListNotations.
Local Open Scope Z_scope.

Section RingVectors.
Context {m : Z} {cls : Z -> Z -> tau -> Prop} {madd mmul add mul : tau -> tau -> res tau} {mdiv div : tau -> tau -> res (option tau)} (R : ring_ok m cls madd mmul add mul mdiv div).
Definition rv (n : nat) (q K : Z) (v : vec) : Prop := length v = n /\ Forall (cls q K) v.
Let Pos := ro_pos _ _ _ _ _ _ _ _ R.
Let Hm := ro_m _ _ _ _ _ _ _ _ R.

Lemma rv_get {C} n q K v i (Q : C -> Prop) k k' : rv n q K v -> (i < n)%nat -> (forall x, cls q K x -> same Q (k x) (k' x)) -> same Q (bind (get v i) k) (bind (get v i) k').
Proof.
  intros [L F] Hi H. unfold get. destruct (nth_error v i) as [x|] eqn:E; [|apply nth_error_None in E; lia]. cbn [bind]. apply H. rewrite Forall_forall in F. apply F. eapply nth_error_In, E.
Qed.
Lemma radd q K L x y : cls q K x -> cls q L y -> q * q <= cap -> (K + L) * q <= cap -> same (cls q (K + L)) (madd x y) (add x y).
Proof.
  intros Gx Gy H1 H2. pose proof (ro_add _ _ _ _ _ _ _ _ R q 1 K L x y) as S. rewrite !Z.mul_1_r in S. apply S; try assumption; lia.
Qed.
Lemma rneg q K x : cls q K x -> m * q <= cap -> m * K <= cap -> same (cls q K) (mmul tm1 x) (mul tm1 x) /\ same (cls q K) (mmul x tm1) (mul x tm1).
Proof.
  intros G H1 H2. pose proof (Pos _ _ _ G) as (Pq & PK & _).
  pose proof (ro_mul _ _ _ _ _ _ _ _ R 1 q 1 K tm1 x (ro_tm1 _ _ _ _ _ _ _ _ R) G) as S. pose proof (ro_mul _ _ _ _ _ _ _ _ R q 1 K 1 x tm1 G (ro_tm1 _ _ _ _ _ _ _ _ R)) as S'.
  rewrite !Z.mul_1_l in S. rewrite !Z.mul_1_r in S'. split; [apply S; try assumption; unfold cap; lia|apply S'; try assumption]. nia.
Qed.
Lemma rsub q K L x y : cls q K x -> cls q L y -> m * q <= cap -> m * L <= cap -> q * q <= cap -> (K + L) * q <= cap -> same (cls q (K + L)) (sub_ madd mmul x y) (sub_ add mul x y).
Proof. intros Gx Gy H1 H2 H3 H4. unfold sub_. eapply same_bind; [apply (rneg q L y Gy H1 H2)|]. intros z Gz. apply radd; assumption. Qed.
Lemma rv_add n q p K L u v : 0 < p -> rv n q K u -> rv n (q * p) L v -> q * (q * p) <= cap -> K * (q * p) + L * q <= cap -> same (rv n (q * p) (K * p + L)) (add_vectors_ madd u v) (add_vectors_ add u v).
Proof.
  intros Pp. revert n v. induction u as [|x xs IH]; intros n [|y ys] [L1 F1] [L2 F2] Hq HB; cbn [length] in L1, L2; subst n; try discriminate; cbn [add_vectors_].
  - apply same_ret. split; [reflexivity|constructor].
  - inversion F1 as [|? ? Gx Fx]; inversion F2 as [|? ? Gy Fy]; subst. eapply same_bind; [apply (ro_add _ _ _ _ _ _ _ _ R q p K L); assumption|]. intros z Gz.
    eapply same_bind; [apply (IH (length xs) ys); [split; [reflexivity|exact Fx]|split; [lia|exact Fy]|exact Hq|exact HB]|]. intros zs [Lz Fz]. apply same_ret. split; [cbn [length]; lia|constructor; assumption].
Qed.
Lemma rv_mul n q p K L v c : rv n q K v -> cls p L c -> m * (q * p) <= cap -> m * (K * L) <= cap -> K <= cap -> same (rv n (q * p) (K * L)) (mul_vector_ mmul v c) (mul_vector_ mul v c).
Proof.
  intros [L1 F1] Gc H1 H2 H3. unfold mul_vector_. eapply same_weaken; [apply same_mapM with (1 := F1)|].
  - intros a Ga. apply (ro_mul _ _ _ _ _ _ _ _ R); eassumption.
  - intros r [Lr Fr]. split; [congruence|exact Fr].
Qed.
Lemma rv_sub n q K L u v : rv n q K u -> rv n q L v -> m * q <= cap -> m * L <= cap -> q * q <= cap -> (K + L) * q <= cap -> same (rv n q (K + L)) (sub_vectors_ madd mmul u v) (sub_vectors_ add mul u v).
Proof.
  intros Gu [L1 F1] H1 H2 H3 H4. unfold sub_vectors_. eapply (same_bind (rv n q L)).
  - unfold mul_vector_. eapply same_weaken; [apply same_mapM with (1 := F1)|].
    + intros a Ga. apply (rneg q L a Ga H1 H2).
    + intros r [Lr Fr]. split; [congruence|exact Fr].
  - intros z Gz. pose proof (rv_add n q 1 K L u z) as S. rewrite !Z.mul_1_r in S. apply S; try assumption; lia.
Qed.
(** The scalar product of two vectors of length 3. *)
Lemma r_inner3 q p K1 K2 K3 L1 L2 L3 x1 x2 x3 y1 y2 y3 : cls q K1 x1 -> cls q K2 x2 -> cls q K3 x3 -> cls p L1 y1 -> cls p L2 y2 -> cls p L3 y3 ->
  m * (q * p) <= cap -> q * p * (q * p) <= cap -> m * (K1 * L1) <= cap -> m * (K2 * L2) <= cap -> m * (K3 * L3) <= cap -> K1 <= cap -> K2 <= cap -> K3 <= cap -> (K1 * L1 + K2 * L2 + K3 * L3) * (q * p) <= cap ->
  same (fun r => exists t, r = Some t /\ cls (q * p) (K1 * L1 + K2 * L2 + K3 * L3) t) (inner_product_ madd mmul [x1; x2; x3] [y1; y2; y3]) (inner_product_ add mul [x1; x2; x3] [y1; y2; y3]).
Proof.
  intros X1 X2 X3 Y1 Y2 Y3 H1 H2 M1 M2 M3 N1 N2 N3 H. pose proof (Pos _ _ _ X1) as (Pq & P1 & _). pose proof (Pos _ _ _ X2) as (_ & P2 & _). pose proof (Pos _ _ _ X3) as (_ & P3 & _).
  pose proof (Pos _ _ _ Y1) as (Pp & Q1 & _). pose proof (Pos _ _ _ Y2) as (_ & Q2 & _). pose proof (Pos _ _ _ Y3) as (_ & Q3 & _).
  assert (A1 : 0 <= K1 * L1) by nia. assert (A2 : 0 <= K2 * L2) by nia. assert (A3 : 0 <= K3 * L3) by nia. assert (Pg : 0 < q * p) by nia.
  assert (Mo : forall s, s <= K1 * L1 + K2 * L2 + K3 * L3 -> s * (q * p) <= cap) by (intros s Hs; eapply Z.le_trans; [|exact H]; apply Z.mul_le_mono_nonneg_r; lia).
  unfold inner_product_. cbn [length Nat.eqb acc_].
  eapply (same_bind (cls (q * p) (K1 * L1 + K2 * L2 + K3 * L3))); [|intros a Ga; apply same_ret; exists a; auto].
  eapply same_bind; [apply (ro_mul _ _ _ _ _ _ _ _ R q p K1 L1); eassumption|]. intros b1 B1. eapply same_bind; [apply (radd (q * p) 0 (K1 * L1)); [apply (ro_t0 _ _ _ _ _ _ _ _ R); exact Pg|exact B1|exact H2|apply Mo; lia]|]. intros a1 G1. rewrite Z.add_0_l in G1.
  eapply same_bind; [apply (ro_mul _ _ _ _ _ _ _ _ R q p K2 L2); eassumption|]. intros b2 B2. eapply same_bind; [apply (radd (q * p) (K1 * L1) (K2 * L2)); [exact G1|exact B2|exact H2|apply Mo; lia]|]. intros a2 G2.
  eapply same_bind; [apply (ro_mul _ _ _ _ _ _ _ _ R q p K3 L3); eassumption|]. intros b3 B3. eapply same_bind; [apply (radd (q * p) (K1 * L1 + K2 * L2) (K3 * L3)); [exact G2|exact B3|exact H2|apply Mo; lia]|]. intros a3 G3. apply same_ret. exact G3.
Qed.
Lemma r_outer q p K L u v : rv 3 q K u -> rv 3 p L v -> m * (q * p) <= cap -> q * p * (q * p) <= cap -> m * (K * L) <= cap -> K <= cap -> 2 * (K * L) * (q * p) <= cap ->
  same (rv 3 (q * p) (2 * (K * L))) (outer_product_ madd mmul u v) (outer_product_ add mul u v).
Proof.
  intros Gu Gv H1 H2 H3 H4 H5. unfold outer_product_.
  assert (S2 : forall x y, cls (q * p) (K * L) x -> cls (q * p) (K * L) y -> same (cls (q * p) (2 * (K * L))) (sub_ madd mmul x y) (sub_ add mul x y)).
  { intros x y Gx Gy. replace (2 * (K * L)) with (K * L + K * L) in * by ring. apply rsub; assumption. }
  assert (M2 : forall x y, cls q K x -> cls p L y -> same (cls (q * p) (K * L)) (mmul x y) (mul x y)) by (intros x y Gx Gy; apply (ro_mul _ _ _ _ _ _ _ _ R); assumption).
  repeat first [eapply rv_get; [first [exact Gu|exact Gv]|lia|]; intros ? ?
               |eapply same_bind; [apply M2; eassumption|]; intros ? ?
               |eapply same_bind; [apply S2; eassumption|]; intros ? ?].
  apply same_ret. split; [reflexivity|]. repeat (apply Forall_cons; [assumption|]). apply Forall_nil.
Qed.
(** A row of the projection. *)
Lemma r_mtrixcal p q K s c1 c2 c3 c4 c5 c6 s1 s2 s3 s4 s5 s6 v : rv 6 q K v -> 0 <= K -> cls p s1 c1 -> cls p s2 c2 -> cls p s3 c3 -> cls p s4 c4 -> cls p s5 c5 -> cls p s6 c6 ->
  s1 + s2 + s3 + s4 + s5 + s6 <= s -> s <= cap -> m * (p * q) <= cap -> p * q * (p * q) <= cap -> m * (s * K) <= cap -> s * K * (p * q) <= cap ->
  same (cls (p * q) (s * K)) (mtrixcal_ madd mmul c1 c2 c3 c4 c5 c6 v) (mtrixcal_ add mul c1 c2 c3 c4 c5 c6 v).
Proof.
  intros Gv PK C1 C2 C3 C4 C5 C6 Hs Ls H1 H2 H3 H4.
  pose proof (Pos _ _ _ C1) as (_ & P1 & _). pose proof (Pos _ _ _ C2) as (_ & P2 & _). pose proof (Pos _ _ _ C3) as (_ & P3 & _). pose proof (Pos _ _ _ C4) as (_ & P4 & _). pose proof (Pos _ _ _ C5) as (_ & P5 & _). pose proof (Pos _ _ _ C6) as (Pp & P6 & _).
  assert (Pq : 0 < q). { destruct Gv as [L F]. destruct v as [|y ys]; [discriminate|]. inversion F as [|? ? Gy _]; subst. apply (Pos _ _ _ Gy). } assert (Pg : 0 < p * q) by nia.
  assert (Mu : forall s' c x, 0 <= s' <= s -> cls p s' c -> cls q K x -> same (cls (p * q) (s' * K)) (mmul c x) (mul c x)).
  { intros s' c x Hs' Gc Gx. apply (ro_mul _ _ _ _ _ _ _ _ R); try assumption; try lia. eapply Z.le_trans; [|exact H3]. apply Z.mul_le_mono_nonneg_l; [lia|]. apply Z.mul_le_mono_nonneg_r; lia. }
  assert (Ad : forall a b x y, a + b <= s -> cls (p * q) (a * K) x -> cls (p * q) (b * K) y -> same (cls (p * q) ((a + b) * K)) (madd x y) (add x y)).
  { intros a b x y Hab Gx Gy. rewrite Z.mul_add_distr_r. apply radd; try assumption. rewrite <- Z.mul_add_distr_r. eapply Z.le_trans; [|exact H4]. apply Z.mul_le_mono_nonneg_r; [lia|]. apply Z.mul_le_mono_nonneg_r; assumption. }
  unfold mtrixcal_.
  eapply rv_get; [exact Gv|lia|]; intros x1 X1; eapply same_bind; [apply (Mu s1); [lia|exact C1|exact X1]|]; intros y1 Y1.
  eapply rv_get; [exact Gv|lia|]; intros x2 X2; eapply same_bind; [apply (Mu s2); [lia|exact C2|exact X2]|]; intros y2 Y2.
  eapply rv_get; [exact Gv|lia|]; intros x3 X3; eapply same_bind; [apply (Mu s3); [lia|exact C3|exact X3]|]; intros y3 Y3.
  eapply rv_get; [exact Gv|lia|]; intros x4 X4; eapply same_bind; [apply (Mu s4); [lia|exact C4|exact X4]|]; intros y4 Y4.
  eapply rv_get; [exact Gv|lia|]; intros x5 X5; eapply same_bind; [apply (Mu s5); [lia|exact C5|exact X5]|]; intros y5 Y5.
  eapply rv_get; [exact Gv|lia|]; intros x6 X6; eapply same_bind; [apply (Mu s6); [lia|exact C6|exact X6]|]; intros y6 Y6.
  eapply same_bind; [apply (Ad s1 s2); [lia|exact Y1|exact Y2]|]. intros z1 Z1.
  eapply same_bind; [apply (Ad (s1 + s2) s3); [lia|exact Z1|exact Y3]|]. intros z2 Z2.
  eapply same_bind; [apply (Ad (s1 + s2 + s3) s4); [lia|exact Z2|exact Y4]|]. intros z3 Z3.
  eapply same_bind; [apply (Ad (s1 + s2 + s3 + s4) s5); [lia|exact Z3|exact Y5]|]. intros z4 Z4.
  eapply same_weaken; [apply (Ad (s1 + s2 + s3 + s4 + s5) s6); [lia|exact Z4|exact Y6]|]. intros r Gr. eapply (ro_weaken _ _ _ _ _ _ _ _ R); [exact Gr|]. apply Z.mul_le_mono_nonneg_r; assumption.
Qed.
(** The last three steps: t = n/d, p0 + t AB. *)
Lemma r_finish q g K N p0 ab x y : rv 6 q K p0 -> rv 6 q (2 * K) ab -> cls g N x -> cls g N y -> m * (N * N) * g <= cap -> m * g <= cap ->
  q * (q * (N * N)) <= cap -> m * (q * (N * N)) <= cap -> m * (4 * (K * (N * N))) <= cap -> 5 * (K * (q * (N * N))) <= cap ->
  bind (mdiv x y) (fun t => bind (notNone t) (fun t => bind (mul_vector_ mmul ab t) (fun tmp => bind (add_vectors_ madd p0 tmp) (fun p => Ok (Some p)))))
  = bind (div x y) (fun t => bind (notNone t) (fun t => bind (mul_vector_ mul ab t) (fun tmp => bind (add_vectors_ add p0 tmp) (fun p => Ok (Some p))))).
Proof.
  intros G0 Ga Gx Gy H1 H2 H3 H4 H5 H6. destruct (ro_div _ _ _ _ _ _ _ _ R g N x y Gx Gy H1 H2) as [[-> ->]|(Q & [PQ LQ] & r & -> & -> & t & -> & Gt)]; [reflexivity|]. cbn [bind notNone].
  assert (Pq : 0 < q /\ 0 <= K). { destruct G0 as [L F]. destruct p0 as [|z zs]; [discriminate|]. inversion F as [|? ? Gz _]; subst. pose proof (Pos _ _ _ Gz). tauto. } destruct Pq as [Pq PK].
  assert (E2 : 2 * K * (2 * (N * N)) = 4 * (K * (N * N))) by ring. assert (Lk : 2 * K <= cap). { assert (1 <= N * N) by lia. assert (K <= K * (N * N)) by nia. nia. }
  assert (LqQ : q * Q <= q * (N * N)) by (apply Z.mul_le_mono_nonneg_l; lia).
  assert (M1 : m * (q * Q) <= cap) by (eapply Z.le_trans; [|exact H4]; apply Z.mul_le_mono_nonneg_l; lia).
  destruct (rv_mul 6 q Q (2 * K) (2 * (N * N)) ab t Ga Gt M1 ltac:(rewrite E2; exact H5) Lk) as (v & -> & -> & Gv). cbn [bind].
  assert (M2 : q * (q * Q) <= cap) by (eapply Z.le_trans; [|exact H3]; apply Z.mul_le_mono_nonneg_l; lia).
  assert (M3 : K * (q * Q) + 2 * K * (2 * (N * N)) * q <= cap).
  { eapply Z.le_trans; [|exact H6]. assert (K * (q * Q) <= K * (q * (N * N))) by (apply Z.mul_le_mono_nonneg_l; lia). replace (2 * K * (2 * (N * N)) * q) with (4 * (K * (q * (N * N)))) by ring. lia. }
  destruct (rv_add 6 q Q K (2 * K * (2 * (N * N))) p0 v PQ G0 Gv M2 M3) as (p & -> & -> & _). reflexivity.
Qed.
End RingVectors.

Lemma rv3 {cls : Z -> Z -> tau -> Prop} q K v : rv (cls := cls) 3 q K v -> exists x y z, v = [x; y; z] /\ cls q K x /\ cls q K y /\ cls q K z.
Proof.
  intros [L F]. destruct v as [|x [|y [|z [|? ?]]]]; try discriminate. exists x, y, z. inversion F as [|? ? X F1]; subst. inversion F1 as [|? ? Y F2]; subst. inversion F2 as [|? ? Z0 _]; subst. auto.
Qed.
Lemma same_eq {A C} (P : A -> Prop) (a a' : res A) (k k' : A -> res C) : same P a a' -> (forall r, P r -> k r = k' r) -> bind a k = bind a' k'.
Proof. intros (r & -> & -> & H) E. exact (E r H). Qed.

(** ** ico2 *)
Local Notation tv := (rv (cls := tau_ring)).
Lemma tc0 : tau_ring 1 0 m0. Proof. split; [lia|]. exists 1. cbn. lia. Qed.
Lemma tc1 : tau_ring 1 1 m1. Proof. split; [lia|]. exists 1. cbn. lia. Qed.
Lemma tc2 : tau_ring 1 1 m2. Proof. split; [lia|]. exists 1. cbn. lia. Qed.
Lemma tc3 : tau_ring 1 2 m3. Proof. split; [lia|]. exists 1. cbn. lia. Qed.
Lemma tc4 : tau_ring 1 2 m4. Proof. split; [lia|]. exists 1. cbn. lia. Qed.
Ltac tcs := first [exact tc0|exact tc1|exact tc2|exact tc3|exact tc4].
Lemma t_projection q K v : tv 6 q K v -> 0 <= K -> q * q <= cap -> 6 * K * q <= cap -> 6 * K <= cap -> same (tv 3 q (6 * K)) (m_projection3 v) (projection3 v).
Proof.
  intros G PK Hq HK H6. assert (Pq : 0 < q). { destruct G as [L F]. destruct v as [|y ys]; [discriminate|]. inversion F as [|? ? Gy _]; subst. exact (proj1 Gy). } assert (Lq : q <= cap) by nia.
  assert (Row : forall c1 c2 c3 c4 c5 c6 s1 s2 s3 s4 s5 s6, tau_ring 1 s1 c1 -> tau_ring 1 s2 c2 -> tau_ring 1 s3 c3 -> tau_ring 1 s4 c4 -> tau_ring 1 s5 c5 -> tau_ring 1 s6 c6 -> s1 + s2 + s3 + s4 + s5 + s6 <= 6 ->
    same (tau_ring q (6 * K)) (m_mtrixcal c1 c2 c3 c4 c5 c6 v) (mtrixcal c1 c2 c3 c4 c5 c6 v)).
  { intros c1 c2 c3 c4 c5 c6 s1 s2 s3 s4 s5 s6 C1 C2 C3 C4 C5 C6 Hs. pose proof (r_mtrixcal tau_ring_ok 1 q K 6 c1 c2 c3 c4 c5 c6 s1 s2 s3 s4 s5 s6 v G PK C1 C2 C3 C4 C5 C6 Hs) as S. rewrite !Z.mul_1_l in S. apply S; try assumption. unfold cap. lia. }
  unfold m_projection3, projection3.
  eapply same_bind; [eapply (Row _ _ _ _ _ _ 2 1 1 0 2 0); [tcs|tcs|tcs|tcs|tcs|tcs|lia]|]. intros x Gx.
  eapply same_bind; [eapply (Row _ _ _ _ _ _ 1 0 0 2 1 2); [tcs|tcs|tcs|tcs|tcs|tcs|lia]|]. intros y Gy.
  eapply same_bind; [eapply (Row _ _ _ _ _ _ 0 2 2 1 0 1); [tcs|tcs|tcs|tcs|tcs|tcs|lia]|]. intros z Gz.
  apply same_ret. split; [reflexivity|]. repeat (apply Forall_cons; [assumption|]). apply Forall_nil.
Qed.

Lemma segment_surface_eq M q K seg sur : length seg = 2%nat -> length sur = 3%nat -> ring_points tau_ring 6 q K seg -> ring_points tau_ring 6 q K sur -> 1 <= K ->
  K * K * q <= 437 -> K^7 * q <= 16758000 -> m_intersection_segment_surface M seg sur = intersection_segment_surface M seg sur.
Proof.
  intros L1 L2 G1 G2 HK H1 H2. destruct seg as [|s0 [|s1 [|? ?]]]; try discriminate. destruct sur as [|f0 [|f1 [|f2 [|? ?]]]]; try discriminate.
  inversion G1 as [|? ? S0 G1']; subst. inversion G1' as [|? ? S1 _]; subst. inversion G2 as [|? ? F0 G2']; subst. inversion G2' as [|? ? F1 G2'']; subst. inversion G2'' as [|? ? F2 _]; subst. clear G1 G1' G2 G2' G2''.
  assert (P : 0 < q /\ 0 <= K). { destruct S0 as [L F]. destruct s0 as [|y ys]; [discriminate|]. inversion F as [|? ? Gy _]; subst. pose proof (ro_pos _ _ _ _ _ _ _ _ tau_ring_ok _ _ _ Gy). tauto. } destruct P as [Pq PK].
  set (N := 10368 * (K * K * K)). assert (PN : 0 <= N) by (unfold N; assert (0 <= K * K) by nia; nia).
  assert (H1' : N * N * (q * q * q) <= cap).
  { replace (N * N * (q * q * q)) with (107495424 * (K * K * q * (K * K * q) * (K * K * q))) by (unfold N; ring). assert (0 <= K * K * q) by (assert (0 <= K * K) by nia; nia).
    assert (T : K * K * q * (K * K * q) <= 437 * 437) by (apply Z.mul_le_mono_nonneg; assumption). assert (T' : K * K * q * (K * K * q) * (K * K * q) <= 437 * 437 * 437) by (apply Z.mul_le_mono_nonneg; nia). unfold cap. lia. }
  replace (K^7 * q) with (K * K * K * (K * K * K) * K * q) in H2 by ring. assert (H2' : 5 * (K * (q * (N * N))) <= cap) by (unfold N, cap; lia). clear H1 H2. rename H1' into H1, H2' into H2.
  unfold m_intersection_segment_surface, intersection_segment_surface. apply bind_ext. intros b. destruct b; [|reflexivity]. cbn [get nth_error bind].
  assert (Hq2 : 1 <= q * q) by nia. assert (Lq : q <= q * q) by nia. assert (Lq3 : q * q <= q * q * q) by nia. assert (K2 : K <= K * K) by nia. assert (K3 : K * K <= K * K * K) by nia.
  assert (LN : 10368 <= N) by (unfold N; lia). assert (NN : 107495424 <= N * N) by nia. assert (Q3 : q * q * q <= 83800000) by (unfold cap in H1; nia).
  assert (LqN : N * (q * q * q) <= cap). { eapply Z.le_trans; [|exact H1]. apply Z.mul_le_mono_nonneg_r; [lia|]. nia. }
  assert (Kq : K * K * (q * q) <= K * K * K * (q * q * q)) by (apply Z.mul_le_mono_nonneg; lia). assert (Kq1 : K * q <= K * K * (q * q)) by (apply Z.mul_le_mono_nonneg; lia). assert (K3q : K * K * K <= K * K * K * (q * q * q)) by (assert (0 <= K * K * K) by lia; assert (1 <= q * q * q) by lia; clear - H H0; nia).
  assert (LqN' : 10368 * (K * K * K * (q * q * q)) <= cap) by (unfold N in LqN; lia).
  assert (Q4 : q * q * (q * q) <= 83800000 * 83800000) by (apply Z.mul_le_mono_nonneg; lia). assert (Q6 : q * q * q * (q * q * q) <= 83800000 * 83800000) by (apply Z.mul_le_mono_nonneg; lia).
  clear LqN. unfold cap in *.
  assert (Su : forall u v, tv 6 q K u -> tv 6 q K v -> same (tv 6 q (2 * K)) (m_sub_vectors u v) (sub_vectors u v)).
  { intros u v Gu Gv. replace (2 * K) with (K + K) by ring. apply (rv_sub tau_ring_ok); try assumption; unfold cap; clear - Q3 Lq3 Kq1 Kq LqN' K2 K3 K3q Lq Pq PK HK; lia. }
  assert (Pr : forall v, tv 6 q (2 * K) v -> same (tv 3 q (12 * K)) (m_projection3 v) (projection3 v)).
  { intros v Gv. replace (12 * K) with (6 * (2 * K)) by ring. apply t_projection; try assumption; unfold cap; clear - Q3 Lq3 Kq1 Kq LqN' K2 K3 K3q Lq Pq PK HK; lia. }
  assert (Ou : forall u v, tv 3 q (12 * K) u -> tv 3 q (12 * K) v -> same (tv 3 (q * q) (288 * (K * K))) (m_outer_product u v) (outer_product u v)).
  { intros u v Gu Gv. replace (288 * (K * K)) with (2 * (12 * K * (12 * K))) by ring. apply (r_outer tau_ring_ok q q (12 * K) (12 * K)); try assumption; unfold cap; clear - Q4 Q3 Lq3 Kq1 Kq LqN' K2 K3 K3q Lq Pq PK HK; lia. }
  assert (Inn : forall u v, tv 3 (q * q) (288 * (K * K)) u -> tv 3 q (12 * K) v -> same (fun r => exists t, r = Some t /\ tau_ring (q * q * q) N t) (m_inner_product u v) (inner_product u v)).
  { intros u v Gu Gv. apply rv3 in Gu as (x1 & x2 & x3 & -> & X1 & X2 & X3). apply rv3 in Gv as (y1 & y2 & y3 & -> & Y1 & Y2 & Y3).
    replace N with (288 * (K * K) * (12 * K) + 288 * (K * K) * (12 * K) + 288 * (K * K) * (12 * K)) by (unfold N; ring).
    apply (r_inner3 tau_ring_ok (q * q) q); try assumption; unfold cap; clear - Q6 Q3 Lq3 Kq1 Kq LqN' K2 K3 K3q Lq Pq PK HK; lia. }
  eapply same_eq; [apply Su; [exact S1|exact S0]|]. intros ab AB. eapply same_eq; [apply Pr, AB|]. intros vab VAB.
  eapply same_eq; [apply Su; [exact F1|exact F0]|]. intros cd CD. eapply same_eq; [apply Pr, CD|]. intros vcd VCD.
  eapply same_eq; [apply Su; [exact F2|exact F0]|]. intros ce CE. eapply same_eq; [apply Pr, CE|]. intros vce VCE.
  eapply same_eq; [apply Su; [exact S0|exact F0]|]. intros ca CA. eapply same_eq; [apply Pr, CA|]. intros vca VCA.
  eapply same_eq; [apply Ou; [exact VAB|exact VCE]|]. intros vp VP. eapply same_eq; [apply Ou; [exact VCA|exact VCD]|]. intros vq VQ.
  eapply same_eq; [apply Inn; [exact VP|exact VCD]|]. intros r1 (d & -> & Gd). eapply same_eq; [apply Inn; [exact VQ|exact VCE]|]. intros r2 (n & -> & Gn). cbn [notNone bind].
  assert (T1 : N * N * (q * q) <= N * N * (q * q * q)) by (apply Z.mul_le_mono_nonneg_l; lia). assert (T2 : N * N * q <= N * N * (q * q)) by (apply Z.mul_le_mono_nonneg_l; lia). assert (T3 : K * (N * N) <= K * (q * (N * N))) by (apply Z.mul_le_mono_nonneg_l; [lia|clear - NN Pq; nia]).
  apply (r_finish tau_ring_ok q (q * q * q) K N); try assumption; unfold cap; clear - Q3 H1 H2 T1 T2 T3; generalize dependent (N * N); intros; lia.
Qed.

(** ** dode2 *)
Local Notation sv := (rv (cls := sqrt3_ring)).
Lemma sc0 : sqrt3_ring 2 0 M0. Proof. split; [lia|]. exists 2, 0. cbn. lia. Qed.
Lemma sc1 : sqrt3_ring 2 2 M1. Proof. split; [lia|]. exists 2, 0. cbn. lia. Qed.
Lemma sc4 : sqrt3_ring 2 1 M4. Proof. split; [lia|]. exists 1, 0. cbn. lia. Qed.
Lemma sc6 : sqrt3_ring 2 2 M6. Proof. split; [lia|]. exists 2, (-1). cbn. lia. Qed.
Ltac scs := first [exact sc0|exact sc1|exact sc4|exact sc6].
Definition sv3 (q K L : Z) (v : vec) : Prop := exists x y z, v = [x; y; z] /\ sqrt3_ring q K x /\ sqrt3_ring q K y /\ sqrt3_ring q L z.
Lemma s_projection q K v : sv 6 q K v -> 0 <= K -> 4 * (2 * q) <= cap -> 2 * q * (2 * q) <= cap -> 5 * K * (2 * q) <= cap -> 4 * (5 * K) <= cap -> same (sv3 (2 * q) (5 * K) (2 * K)) (md_projection3 v) (dprojection3 v).
Proof.
  intros G PK H1 H2 H3 H4. assert (Pq : 0 < q). { destruct G as [L F]. destruct v as [|y ys]; [discriminate|]. inversion F as [|? ? Gy _]; subst. exact (proj1 Gy). }
  assert (Row : forall s c1 c2 c3 c4 c5 c6 s1 s2 s3 s4 s5 s6, 0 <= s <= 5 -> sqrt3_ring 2 s1 c1 -> sqrt3_ring 2 s2 c2 -> sqrt3_ring 2 s3 c3 -> sqrt3_ring 2 s4 c4 -> sqrt3_ring 2 s5 c5 -> sqrt3_ring 2 s6 c6 -> s1 + s2 + s3 + s4 + s5 + s6 <= s ->
    same (sqrt3_ring (2 * q) (s * K)) (md_mtrixcal c1 c2 c3 c4 c5 c6 v) (dmtrixcal c1 c2 c3 c4 c5 c6 v)).
  { intros s c1 c2 c3 c4 c5 c6 s1 s2 s3 s4 s5 s6 Hs5 C1 C2 C3 C4 C5 C6 Hs. assert (0 <= s * K <= 5 * K) by nia.
    apply (r_mtrixcal sqrt3_ring_ok 2 q K s c1 c2 c3 c4 c5 c6 s1 s2 s3 s4 s5 s6 v G PK C1 C2 C3 C4 C5 C6 Hs); try assumption; unfold cap in *; try lia. eapply Z.le_trans; [|exact H3]. apply Z.mul_le_mono_nonneg_r; lia. }
  unfold md_projection3, dprojection3.
  eapply same_bind; [eapply (Row 5 _ _ _ _ _ _ 2 2 0 1 0 0); [lia|scs|scs|scs|scs|scs|scs|lia]|]. intros x Gx.
  eapply same_bind; [eapply (Row 5 _ _ _ _ _ _ 1 0 2 2 0 0); [lia|scs|scs|scs|scs|scs|scs|lia]|]. intros y Gy.
  eapply same_bind; [eapply (Row 2 _ _ _ _ _ _ 0 0 0 0 0 2); [lia|scs|scs|scs|scs|scs|scs|lia]|]. intros z Gz.
  apply same_ret. exists x, y, z. auto.
Qed.

Lemma two_segment_eq M q K s1 s2 : length s1 = 2%nat -> length s2 = 2%nat -> ring_points sqrt3_ring 6 q K s1 -> ring_points sqrt3_ring 6 q K s2 -> 1 <= K ->
  K * K * q <= 11 -> md_intersection_two_segment M s1 s2 = dintersection_two_segment M s1 s2.
Proof.
  intros L1 L2 G1 G2 HK H. destruct s1 as [|p0 [|p1 [|? ?]]]; try discriminate. destruct s2 as [|q0 [|q1 [|? ?]]]; try discriminate.
  inversion G1 as [|? ? S0 G1']; subst. inversion G1' as [|? ? S1 _]; subst. inversion G2 as [|? ? F0 G2']; subst. inversion G2' as [|? ? F1 _]; subst. clear G1 G1' G2 G2'.
  assert (Pq : 0 < q). { destruct S0 as [L F]. destruct p0 as [|y ys]; [discriminate|]. inversion F as [|? ? Gy _]; subst. exact (proj1 Gy). }
  assert (LK : K <= 3) by nia. assert (K2 : 1 <= K * K <= 9) by nia. assert (Lq : q <= 11) by nia.
  set (N := 93312 * (K * K * (K * K))).
  assert (A1 : 1 <= K * K * (K * K) <= 81) by nia. assert (A2 : K * K * q * (K * K * q) <= 121) by (apply (Z.le_trans _ (11 * 11)); [apply Z.mul_le_mono_nonneg; lia|lia]).
  assert (A3 : N * N * (q * q * (q * q)) <= 93312 * 93312 * 14641).
  { replace (N * N * (q * q * (q * q))) with (93312 * 93312 * (K * K * q * (K * K * q) * (K * K * q * (K * K * q)))) by (unfold N; ring). assert (K * K * q * (K * K * q) * (K * K * q * (K * K * q)) <= 121 * 121) by (apply Z.mul_le_mono_nonneg; try lia; apply Z.mul_nonneg_nonneg; lia). lia. }
  assert (Q2 : 1 <= q * q <= 121) by nia. assert (Q4 : 1 <= q * q * (q * q) <= 14641) by nia. assert (Lq4 : q * q <= q * q * (q * q)) by nia. assert (Lq2 : q <= q * q) by nia.
  assert (PN : 1 <= N * N) by (unfold N; nia).
  unfold md_intersection_two_segment, dintersection_two_segment. apply bind_ext. intros b. destruct b; [|reflexivity]. cbn [get nth_error bind].
  assert (Su : forall u v, sv 6 q K u -> sv 6 q K v -> same (sv 6 q (2 * K)) (md_sub_vectors u v) (dsub_vectors u v)).
  { intros u v Gu Gv. replace (2 * K) with (K + K) by ring. apply (rv_sub sqrt3_ring_ok); try assumption; unfold cap; clear - Lq LK Pq HK; nia. }
  assert (Pr : forall v, sv 6 q (2 * K) v -> same (sv3 (2 * q) (10 * K) (4 * K)) (md_projection3 v) (dprojection3 v)).
  { intros v Gv. replace (10 * K) with (5 * (2 * K)) by ring. replace (4 * K) with (2 * (2 * K)) by ring. apply s_projection; try assumption; unfold cap; clear - Lq LK Pq HK; nia. }
  assert (Dt : forall u v, sv3 (2 * q) (10 * K) (4 * K) u -> sv3 (2 * q) (10 * K) (4 * K) v ->
    same (sqrt3_ring (2 * q * (2 * q)) (216 * (K * K))) (bind (inner_product_ md_add md_mul u v) notNone) (bind (dinner_product u v) notNone)).
  { intros u v (x1 & x2 & x3 & -> & X1 & X2 & X3) (y1 & y2 & y3 & -> & Y1 & Y2 & Y3). replace (216 * (K * K)) with (10 * K * (10 * K) + 10 * K * (10 * K) + 4 * K * (4 * K)) by ring.
    eapply same_bind; [apply (r_inner3 sqrt3_ring_ok (2 * q) (2 * q) (10 * K) (10 * K) (4 * K) (10 * K) (10 * K) (4 * K) x1 x2 x3 y1 y2 y3); try assumption; unfold cap; clear - Lq LK Pq HK K2 Q2 Q4; try nia|].
    intros r (t & -> & Gt). apply same_ret. exact Gt. }
  assert (Pd : forall x y, sqrt3_ring (2 * q * (2 * q)) (216 * (K * K)) x -> sqrt3_ring (2 * q * (2 * q)) (216 * (K * K)) y -> same (sqrt3_ring (2 * q * (2 * q) * (2 * q * (2 * q))) (216 * (K * K) * (216 * (K * K)))) (md_mul x y) (dmul x y)).
  { intros x y Gx Gy. apply (ro_mul _ _ _ _ _ _ _ _ sqrt3_ring_ok); try assumption; unfold cap; clear - K2 Q2 Q4 A1; lia. }
  assert (Sb : forall x y, sqrt3_ring (2 * q * (2 * q) * (2 * q * (2 * q))) (216 * (K * K) * (216 * (K * K))) x -> sqrt3_ring (2 * q * (2 * q) * (2 * q * (2 * q))) (216 * (K * K) * (216 * (K * K))) y ->
    same (sqrt3_ring (2 * q * (2 * q) * (2 * q * (2 * q))) N) (md_sub x y) (dsub x y)).
  { intros x y Gx Gy. replace N with (216 * (K * K) * (216 * (K * K)) + 216 * (K * K) * (216 * (K * K))) by (unfold N; ring). apply (rsub sqrt3_ring_ok); [exact Gx|exact Gy| | | |]; unfold cap.
    - clear - Q4. lia.
    - clear - A1. lia.
    - replace (2 * q * (2 * q) * (2 * q * (2 * q)) * (2 * q * (2 * q) * (2 * q * (2 * q)))) with (256 * (q * q * (q * q) * (q * q * (q * q)))) by ring. assert (q * q * (q * q) * (q * q * (q * q)) <= 14641 * 14641) by (apply Z.mul_le_mono_nonneg; lia). lia.
    - replace ((216 * (K * K) * (216 * (K * K)) + 216 * (K * K) * (216 * (K * K))) * (2 * q * (2 * q) * (2 * q * (2 * q)))) with (93312 * 16 * (K * K * (K * K) * (q * q * (q * q)))) by ring. assert (K * K * (K * K) * (q * q * (q * q)) <= 81 * 14641) by (apply Z.mul_le_mono_nonneg; lia). lia. }
  eapply same_eq; [apply Su; [exact S1|exact S0]|]. intros ab AB. eapply same_eq; [apply Pr, AB|]. intros vab VAB.
  eapply same_eq; [apply Su; [exact F1|exact F0]|]. intros cd CD. eapply same_eq; [apply Pr, CD|]. intros vcd VCD.
  eapply same_eq; [apply Su; [exact F0|exact S0]|]. intros ac AC. eapply same_eq; [apply Pr, AC|]. intros vac VAC.
  eapply same_eq; [apply Dt; [exact VAB|exact VCD]|]. intros d1 D1. eapply same_eq; [apply Dt; [exact VCD|exact VAB]|]. intros d2 D2. eapply same_eq; [apply Pd; [exact D1|exact D2]|]. intros d3 D3.
  eapply same_eq; [apply Dt; [exact VAB|exact VAB]|]. intros d4 D4. eapply same_eq; [apply Dt; [exact VCD|exact VCD]|]. intros d5 D5. eapply same_eq; [apply Pd; [exact D4|exact D5]|]. intros d6 D6.
  eapply same_eq; [apply Sb; [exact D3|exact D6]|]. intros d Gd.
  eapply same_eq; [apply Dt; [exact VAC|exact VCD]|]. intros e1 E1. eapply same_eq; [apply Dt; [exact VCD|exact VAB]|]. intros e2 E2. eapply same_eq; [apply Pd; [exact E1|exact E2]|]. intros e3 E3.
  eapply same_eq; [apply Dt; [exact VCD|exact VCD]|]. intros e4 E4. eapply same_eq; [apply Dt; [exact VAC|exact VAB]|]. intros e5 E5. eapply same_eq; [apply Pd; [exact E4|exact E5]|]. intros e6 E6.
  eapply same_eq; [apply Sb; [exact E3|exact E6]|]. intros n Gn.
  assert (T1 : N * N * (q * q) <= N * N * (q * q * (q * q))) by (apply Z.mul_le_mono_nonneg_l; lia). assert (T2 : N * N * q <= N * N * (q * q)) by (apply Z.mul_le_mono_nonneg_l; lia). assert (T4 : N * N <= N * N * q) by (clear - PN Pq; nia). assert (T3 : K * (N * N) <= 3 * (N * N)) by (apply Z.mul_le_mono_nonneg_r; lia). assert (T5 : K * (q * (N * N)) <= 3 * (q * (N * N))) by (apply Z.mul_le_mono_nonneg_r; [clear - PN Pq; nia|exact LK]).
  apply (r_finish sqrt3_ring_ok q (2 * q * (2 * q) * (2 * q * (2 * q))) K N); try assumption; unfold cap; clear - Q4 A3 T1 T2 T3 T4 T5; generalize dependent (N * N); intros; lia.
Qed.
