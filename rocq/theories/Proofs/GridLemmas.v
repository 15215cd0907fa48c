(** The machine computes what exact arithmetic computes as long as the numbers, on a common
    denominator, stay small. *)
From Coq Require Import Reals List ZArith Lia Lra Bool.
From Verif Require Import Base.Res Model.Tau Model.Arr Model.IcoScalar Model.DodeScalar Model.Machine Model.Vectors
  Spec.Value Spec.Grid Proofs.ResLemmas Proofs.ValueLemmas Proofs.ScalarLemmas Proofs.Irrational Proofs.MachineLemmas.
Import ListNotations.
Local Open Scope Z_scope.

(** ** Numbers on a grid *)
Lemma grid_wf q B x : on_grid q B x -> wf x.
Proof. intros (Hq & k & E & _) Z. rewrite Z in E. lia. Qed.
Lemma grid_pos q B x : on_grid q B x -> 0 <= B.
Proof. intros (Hq & k & E & Ha & _). lia. Qed.
Lemma grid_small q B x : on_grid q B x -> Z.abs (ta x) <= B /\ Z.abs (tb x) <= B /\ Z.abs (tc x) <= q.
Proof.
  intros (Hq & k & E & Ha & Hb). assert (k <> 0) by (intros ->; lia). rewrite Z.abs_mul in *.
  assert (1 <= Z.abs k) by lia. assert (Ec : Z.abs k * Z.abs (tc x) = q) by (rewrite <- Z.abs_mul; lia). nia.
Qed.
Lemma grid_weaken q B B' x : on_grid q B x -> B <= B' -> on_grid q B' x.
Proof. intros (Hq & k & E & Ha & Hb) H. split; [exact Hq|]. exists k. lia. Qed.
Lemma grid_scale q B n x : 0 < n -> on_grid q B x -> on_grid (q * n) (B * n) x.
Proof.
  intros Hn (Hq & k & E & Ha & Hb). split; [lia|]. exists (k * n). split; [rewrite <- E; ring|].
  replace (k * n * ta x) with (k * ta x * n) by ring. replace (k * n * tb x) with (k * tb x * n) by ring. rewrite !(Z.abs_mul _ n). nia.
Qed.
Lemma grid_t0 q B : 0 < q -> 0 <= B -> on_grid q B t0.
Proof. intros Hq HB. split; [exact Hq|]. exists q. cbn. lia. Qed.
Lemma grid_const x y n : 0 < n -> on_grid n (Z.max (Z.abs x) (Z.abs y)) (T x y n).
Proof. intros Hn. split; [exact Hn|]. exists 1. cbn [ta tb tc]. lia. Qed.
Lemma grid_val w q B x : on_grid q B x -> exists a b, Z.abs a <= B /\ Z.abs b <= B /\ (val w x = (IZR a + IZR b * w) / IZR q)%R.
Proof.
  intros G. pose proof (grid_wf _ _ _ G) as W. destruct G as (Hq & k & E & Ha & Hb). exists (k * ta x), (k * tb x). split; [exact Ha|]. split; [exact Hb|].
  assert (k <> 0) by (intros ->; lia). unfold val. rewrite <- E, !mult_IZR. field. split; apply not_0_IZR; assumption.
Qed.
(** A number in lowest terms lies on every grid its value lies on. *)
Lemma canon_grid w q B r a b : irrational w -> canon r -> 0 < q -> (val w r = (IZR a + IZR b * w) / IZR q)%R -> Z.abs a <= B -> Z.abs b <= B -> on_grid q B r.
Proof.
  intros Irr (Pc & G) Hq V Ha Hb. destruct r as [x y z]. unfold val in V. cbn [ta tb tc] in *.
  assert (Zz : IZR z <> 0%R) by (apply not_0_IZR; lia). assert (Zq : IZR q <> 0%R) by (apply not_0_IZR; lia).
  assert (E : (IZR (x * q - a * z) + IZR (y * q - b * z) * w = 0)%R).
  { rewrite !minus_IZR, !mult_IZR. apply (Rmult_eq_reg_r (/ (IZR z * IZR q))); [|apply Rinv_neq_0_compat; apply Rmult_integral_contrapositive; auto].
    rewrite Rmult_0_l. replace ((IZR x * IZR q - IZR a * IZR z + (IZR y * IZR q - IZR b * IZR z) * w) * / (IZR z * IZR q))%R with ((IZR x + IZR y * w) / IZR z - (IZR a + IZR b * w) / IZR q)%R by (field; auto). lra. }
  apply Irr in E as [E1 E2].
  assert (D : (z | q)).
  { replace q with (q * Z.gcd (Z.gcd x y) z) by (rewrite G; ring).
    rewrite <- (Z.abs_eq q) at 1 by lia. rewrite <- Z.gcd_mul_mono_l, <- (Z.abs_eq q) at 1 by lia. rewrite Z.abs_eq by lia.
    apply Z.gcd_greatest; [|exists q; ring]. rewrite <- (Z.abs_eq q) by lia. rewrite <- Z.gcd_mul_mono_l. apply Z.gcd_greatest; [exists a|exists b]; lia. }
  destruct D as [k D]. split; [exact Hq|]. exists k. cbn [ta tb tc]. split; [lia|].
  assert (k * x = a) by (apply (Z.mul_reg_r _ _ z); [lia|]; rewrite D in E1; lia). assert (k * y = b) by (apply (Z.mul_reg_r _ _ z); [lia|]; rewrite D in E2; lia). lia.
Qed.

(** ** The scalar operations *)
Lemma same_intro w q B a b m m' : irrational w -> 0 < q -> m = m' -> wp m' (fun r => canon r /\ val w r = (IZR a + IZR b * w) / IZR q)%R -> Z.abs a <= B -> Z.abs b <= B -> same (on_grid q B) m m'.
Proof.
  intros Irr Hq E W Ha Hb. destruct m' as [r|]; [|destruct W]. destruct W as [C V]. exists r. split; [exact E|]. split; [reflexivity|]. eapply canon_grid; eassumption.
Qed.
Lemma add_vals w q B C x y : on_grid q B x -> on_grid q C y -> exists a b, Z.abs a <= B + C /\ Z.abs b <= B + C /\ (val w x + val w y = (IZR a + IZR b * w) / IZR q)%R.
Proof.
  intros Gx Gy. destruct (grid_val w _ _ _ Gx) as (a & b & Ha & Hb & ->), (grid_val w _ _ _ Gy) as (a' & b' & Ha' & Hb' & ->).
  exists (a + a'), (b + b'). split; [lia|]. split; [lia|]. rewrite !plus_IZR. field. apply not_0_IZR. destruct Gx. lia.
Qed.
Lemma rat_vals w q B z n x : 0 < n -> on_grid q B x -> exists a b, Z.abs a <= Z.abs z * B /\ Z.abs b <= Z.abs z * B /\ (val w (T z 0 n) * val w x = (IZR a + IZR b * w) / IZR (q * n))%R.
Proof.
  intros Hn Gx. destruct (grid_val w _ _ _ Gx) as (a & b & Ha & Hb & ->). exists (z * a), (z * b). rewrite !Z.abs_mul. split; [nia|]. split; [nia|].
  unfold val. cbn [ta tb tc]. rewrite !mult_IZR. field. split; apply not_0_IZR; destruct Gx; lia.
Qed.

Ltac sides Gx Gy x y := let x0 := fresh "x" in let x1 := fresh "x" in let x2 := fresh "x" in let y0 := fresh "y" in let y1 := fresh "y" in let y2 := fresh "y" in
  destruct (grid_small _ _ _ Gx) as (? & ? & ?), (grid_small _ _ _ Gy) as (? & ? & ?); pose proof (grid_pos _ _ _ Gx); pose proof (grid_pos _ _ _ Gy); pose proof (proj1 Gx); pose proof (proj1 Gy);
  destruct x as [x0 x1 x2], y as [y0 y1 y2]; cbn [ta tb tc] in *.
Ltac gb := eapply Z.le_trans; [bnd1|]; repeat match goal with |- context [Z.abs (Zpos ?n)] => change (Z.abs (Zpos n)) with (Zpos n) end;
  repeat match goal with H : Z.abs _ <= _ |- _ => clear H end; lia.
Ltac uw := unfold wadd, wsub, wmul, wneg;
  repeat match goal with |- context [wrap64 ?e] => lazymatch e with context [wrap64 _] => fail | _ => rewrite (wrap64_abs e) by gb end end.

Lemma m_add_grid q B C x y : on_grid q B x -> on_grid q C y -> q * q <= cap -> (B + C) * q <= cap -> m_add x y = add x y /\ md_add x y = dadd x y.
Proof.
  intros Gx Gy Hq HB. sides Gx Gy x y. unfold m_add, md_add, dadd, add. cbn [ta tb tc]. unfold cap in *. assert (0 <= B * q) by nia. assert (0 <= C * q) by nia.
  uw. split; [apply m_reduce_exact|apply m_reduce_d_exact]; unfold small; gb.
Qed.
Lemma m_mul_grid q p B C x y : on_grid q B x -> on_grid p C y -> q * p <= cap -> 3 * (B * C) <= cap -> m_mul x y = mul x y.
Proof.
  intros Gx Gy Hq HB. sides Gx Gy x y. unfold m_mul, mul. cbn [ta tb tc]. unfold cap in *. assert (0 <= B * C) by nia.
  uw. apply m_reduce_exact; unfold small; gb.
Qed.
Lemma md_mul_grid q p B C x y : on_grid q B x -> on_grid p C y -> 4 * (q * p) <= cap -> 8 * (B * C) <= cap -> B <= cap -> md_mul x y = dmul x y.
Proof.
  intros Gx Gy Hq HB LB. sides Gx Gy x y. unfold md_mul, dmul. cbn [ta tb tc]. unfold cap in *. assert (0 <= B * C) by nia. assert (q <= q * p) by nia.
  uw. apply m_reduce_d_exact; unfold small; gb.
Qed.

Lemma const_grid z n : 0 < n -> on_grid n (Z.abs z) (T z 0 n).
Proof. intros Hn. split; [exact Hn|]. exists 1. cbn [ta tb tc]. lia. Qed.
(** What the vector code needs to know about a machine arithmetic. *)
Record machine_ok (w : R) (kd kn : Z) (madd mmul add mul : tau -> tau -> res tau) : Prop := MachineOk {
  mo_arith : arith_ok w add mul;
  mo_kd : 1 <= kd; mo_kn : 1 <= kn;
  mo_add : forall q B C x y, on_grid q B x -> on_grid q C y -> q * q <= cap -> (B + C) * q <= cap -> same (on_grid q (B + C)) (madd x y) (add x y);
  mo_mul : forall q p B C x y, on_grid q B x -> on_grid p C y -> kd * (q * p) <= cap -> kn * (B * C) <= cap -> B <= cap -> same (on_grid (kd * (q * p)) (kn * (B * C))) (mmul x y) (mul x y);
  mo_rat_l : forall q B z n x, 0 < n -> on_grid q B x -> kd * (q * n) <= cap -> kn * (Z.abs z * B) <= cap -> Z.abs z <= cap -> same (on_grid (q * n) (Z.abs z * B)) (mmul (T z 0 n) x) (mul (T z 0 n) x);
  mo_rat_r : forall q B z n x, 0 < n -> on_grid q B x -> kd * (q * n) <= cap -> kn * (Z.abs z * B) <= cap -> B <= cap -> same (on_grid (q * n) (Z.abs z * B)) (mmul x (T z 0 n)) (mul x (T z 0 n))
}.

Lemma ico_machine : machine_ok TAU 1 3 m_add m_mul add mul.
Proof.
  split; [apply ico_arith|lia|lia| | | |].
  - intros q B C x y Gx Gy Hq HB. destruct (add_vals TAU _ _ _ _ _ Gx Gy) as (a & b & Ha & Hb & E). eapply (same_intro TAU q _ a b); [exact TAU_irrational|exact (proj1 Gx)|exact (proj1 (m_add_grid _ _ _ _ _ Gx Gy Hq HB))| |exact Ha|exact Hb].
    rewrite <- E. apply (ao_add _ _ _ ico_arith); eapply grid_wf; eassumption.
  - intros q p B C x y Gx Gy Hq HB _. destruct (grid_val TAU _ _ _ Gx) as (a & b & Ha & Hb & Ex), (grid_val TAU _ _ _ Gy) as (a' & b' & Ha' & Hb' & Ey).
    pose proof (proj1 Gx). pose proof (proj1 Gy). rewrite Z.mul_1_l in *.
    eapply (same_intro TAU (q * p) _ (a * a' + b * b') (a * b' + b * a' + b * b')); [exact TAU_irrational|lia|eapply m_mul_grid; eassumption| | |].
    + eapply wp_mono; [apply (ao_mul _ _ _ ico_arith); eapply grid_wf; eassumption|]. intros r [Cr Vr]. split; [exact Cr|]. rewrite Vr, Ex, Ey, !plus_IZR, !mult_IZR. field [TAU_sq]. split; apply not_0_IZR; lia.
    + eapply Z.le_trans; [bnd1|]. assert (0 <= B * C) by (pose proof (grid_pos _ _ _ Gx); pose proof (grid_pos _ _ _ Gy); nia). lia.
    + eapply Z.le_trans; [bnd1|]. lia.
  - intros q B z n x Hn Gx Hq HB _. destruct (rat_vals TAU _ _ z n x Hn Gx) as (a & b & Ha & Hb & E). pose proof (proj1 Gx). eapply (same_intro TAU (q * n) _ a b); [exact TAU_irrational|lia| | |exact Ha|exact Hb].
    + eapply m_mul_grid; [apply const_grid; exact Hn|exact Gx|lia|exact HB].
    + rewrite <- E. apply (ao_mul _ _ _ ico_arith); [eapply grid_wf, const_grid; exact Hn|eapply grid_wf; eassumption].
  - intros q B z n x Hn Gx Hq HB _. destruct (rat_vals TAU _ _ z n x Hn Gx) as (a & b & Ha & Hb & E). pose proof (proj1 Gx). eapply (same_intro TAU (q * n) _ a b); [exact TAU_irrational|lia| | |exact Ha|exact Hb].
    + eapply m_mul_grid; [exact Gx|apply const_grid; exact Hn|lia|lia].
    + rewrite <- E, Rmult_comm. apply (ao_mul _ _ _ ico_arith); [eapply grid_wf; eassumption|eapply grid_wf, const_grid; exact Hn].
Qed.
Lemma dode_machine : machine_ok SIN 4 8 md_add md_mul dadd dmul.
Proof.
  pose proof (ao_irr _ _ _ dode_arith) as Irr.
  split; [apply dode_arith|lia|lia| | | |].
  - intros q B C x y Gx Gy Hq HB. destruct (add_vals SIN _ _ _ _ _ Gx Gy) as (a & b & Ha & Hb & E). eapply (same_intro SIN q _ a b); [exact Irr|exact (proj1 Gx)|exact (proj2 (m_add_grid _ _ _ _ _ Gx Gy Hq HB))| |exact Ha|exact Hb].
    rewrite <- E. apply (ao_add _ _ _ dode_arith); eapply grid_wf; eassumption.
  - intros q p B C x y Gx Gy Hq HB LB. destruct (grid_val SIN _ _ _ Gx) as (a & b & Ha & Hb & Ex), (grid_val SIN _ _ _ Gy) as (a' & b' & Ha' & Hb' & Ey).
    pose proof (proj1 Gx). pose proof (proj1 Gy). assert (0 <= B * C) by (pose proof (grid_pos _ _ _ Gx); pose proof (grid_pos _ _ _ Gy); nia).
    eapply (same_intro SIN (4 * (q * p)) _ (4 * (a * a') + 3 * (b * b')) (4 * (a * b' + b * a'))); [exact Irr|lia|eapply md_mul_grid; eassumption| | |].
    + eapply wp_mono; [apply (ao_mul _ _ _ dode_arith); eapply grid_wf; eassumption|]. intros r [Cr Vr]. split; [exact Cr|]. rewrite Vr, Ex, Ey. repeat first [rewrite plus_IZR|rewrite mult_IZR]. assert (IZR q <> 0)%R by (apply not_0_IZR; lia). assert (IZR p <> 0)%R by (apply not_0_IZR; lia).
      transitivity ((IZR a * IZR a' + (IZR a * IZR b' + IZR b * IZR a') * SIN + IZR b * IZR b' * (SIN * SIN)) / (IZR q * IZR p))%R; [field; auto|]. rewrite SIN_sq. field; auto.
    + gb.
    + gb.
  - intros q B z n x Hn Gx Hq HB Lz. destruct (rat_vals SIN _ _ z n x Hn Gx) as (a & b & Ha & Hb & E). pose proof (proj1 Gx). eapply (same_intro SIN (q * n) _ a b); [exact Irr|lia| | |exact Ha|exact Hb].
    + eapply md_mul_grid; [apply const_grid; exact Hn|exact Gx|lia|exact HB|exact Lz].
    + rewrite <- E. apply (ao_mul _ _ _ dode_arith); [eapply grid_wf, const_grid; exact Hn|eapply grid_wf; eassumption].
  - intros q B z n x Hn Gx Hq HB LB. destruct (rat_vals SIN _ _ z n x Hn Gx) as (a & b & Ha & Hb & E). pose proof (proj1 Gx). eapply (same_intro SIN (q * n) _ a b); [exact Irr|lia| | |exact Ha|exact Hb].
    + eapply md_mul_grid; [exact Gx|apply const_grid; exact Hn|lia|lia|exact LB].
    + rewrite <- E, Rmult_comm. apply (ao_mul _ _ _ dode_arith); [eapply grid_wf; eassumption|eapply grid_wf, const_grid; exact Hn].
Qed.

(** ** Sequencing *)
Lemma same_bind {A C} (P : A -> Prop) (Q : C -> Prop) m m' k k' : same P m m' -> (forall r, P r -> same Q (k r) (k' r)) -> same Q (bind m k) (bind m' k').
Proof. intros (r & -> & -> & H) K. exact (K r H). Qed.
Lemma same_ret {A} (P : A -> Prop) r : P r -> same P (Ok r) (Ok r).
Proof. intros H. exists r. auto. Qed.
Lemma same_weaken {A} (P Q : A -> Prop) m m' : same P m m' -> (forall r, P r -> Q r) -> same Q m m'.
Proof. intros (r & E & E' & H) K. exists r. auto. Qed.
Lemma same_mapM {A C} (P : A -> Prop) (Q : C -> Prop) f f' l : Forall P l -> (forall a, P a -> same Q (f a) (f' a)) -> same (fun l' => length l' = length l /\ Forall Q l') (mapM f l) (mapM f' l).
Proof.
  intros F H. induction F as [|x xs Hx _ IH]; cbn [mapM]; [apply same_ret; split; [reflexivity|constructor]|].
  eapply same_bind; [apply H, Hx|]. intros y Hy. eapply same_bind; [exact IH|]. intros ys [L Hys]. apply same_ret. split; [cbn [length]; congruence|constructor; assumption].
Qed.
Lemma gridv_weaken n q B B' v : gridv n q B v -> B <= B' -> gridv n q B' v.
Proof. intros [L F] H. split; [exact L|]. eapply Forall_impl; [|exact F]. intros x G. eapply grid_weaken; eassumption. Qed.
Lemma gridv_scale n q B k v : 0 < k -> gridv n q B v -> gridv n (q * k) (B * k) v.
Proof. intros Hk [L F]. split; [exact L|]. eapply Forall_impl; [|exact F]. intros x G. apply grid_scale; assumption. Qed.
Lemma gridv_nth n q B v i : gridv n q B v -> (i < n)%nat -> exists x, get v i = Ok x /\ on_grid q B x.
Proof.
  intros [L F] Hi. unfold get. destruct (nth_error v i) as [x|] eqn:E; [|apply nth_error_None in E; lia]. exists x. split; [reflexivity|].
  rewrite Forall_forall in F. apply F. eapply nth_error_In, E.
Qed.
Lemma same_get {C} n q B v i (Q : C -> Prop) k k' : gridv n q B v -> (i < n)%nat -> (forall x, on_grid q B x -> same Q (k x) (k' x)) -> same Q (bind (get v i) k) (bind (get v i) k').
Proof. intros G Hi K. destruct (gridv_nth _ _ _ _ _ G Hi) as (x & -> & Gx). exact (K x Gx). Qed.

Section GridVectors.
Context {w : R} {kd kn : Z} {madd mmul add mul : tau -> tau -> res tau} (K : machine_ok w kd kn madd mmul add mul).
Let Hkd := mo_kd _ _ _ _ _ _ _ K.
Let Hkn := mo_kn _ _ _ _ _ _ _ K.

Lemma neg_grid q B x : on_grid q B x -> kd * q <= cap -> kn * B <= cap -> same (on_grid q B) (mmul tm1 x) (mul tm1 x).
Proof.
  intros G Hq HB. replace q with (q * 1) by ring. replace B with (Z.abs (-1) * B) by (change (Z.abs (-1)) with 1; ring).
  apply (mo_rat_l _ _ _ _ _ _ _ K); [lia|exact G| | |unfold cap; cbn; lia]; rewrite ?Z.mul_1_r; try exact Hq. change (Z.abs (-1)) with 1. rewrite Z.mul_1_l. exact HB.
Qed.
Lemma negr_grid q B x : on_grid q B x -> kd * q <= cap -> kn * B <= cap -> same (on_grid q B) (mmul x tm1) (mul x tm1).
Proof.
  intros G Hq HB. pose proof (grid_pos _ _ _ G). replace q with (q * 1) by ring. replace B with (Z.abs (-1) * B) by (change (Z.abs (-1)) with 1; ring).
  apply (mo_rat_r _ _ _ _ _ _ _ K); [lia|exact G| | |nia]; rewrite ?Z.mul_1_r; try exact Hq. change (Z.abs (-1)) with 1. rewrite Z.mul_1_l. exact HB.
Qed.
Lemma sub_grid q B C x y : on_grid q B x -> on_grid q C y -> kd * q <= cap -> kn * C <= cap -> q * q <= cap -> (B + C) * q <= cap -> same (on_grid q (B + C)) (sub_ madd mmul x y) (sub_ add mul x y).
Proof.
  intros Gx Gy H1 H2 H3 H4. unfold sub_. eapply same_bind; [apply neg_grid; eassumption|]. intros z Gz. apply (mo_add _ _ _ _ _ _ _ K); assumption.
Qed.
Lemma add_vectors_grid n q B C u v : gridv n q B u -> gridv n q C v -> q * q <= cap -> (B + C) * q <= cap -> same (gridv n q (B + C)) (add_vectors_ madd u v) (add_vectors_ add u v).
Proof.
  revert n v. induction u as [|x xs IH]; intros n [|y ys] [L F] [L' F'] Hq HB; cbn [length] in L, L'; subst n; try discriminate; cbn [add_vectors_].
  - apply same_ret. split; [reflexivity|constructor].
  - inversion F as [|? ? Gx Fx]; inversion F' as [|? ? Gy Fy]; subst. eapply same_bind; [apply (mo_add _ _ _ _ _ _ _ K); eassumption|]. intros z Gz.
    eapply same_bind; [apply (IH (length xs) ys); [split; [reflexivity|exact Fx]|split; [lia|exact Fy]|exact Hq|exact HB]|]. intros zs [Lz Fz]. apply same_ret. split; [cbn [length]; lia|constructor; assumption].
Qed.
Lemma neg_vector_grid n q B v : gridv n q B v -> kd * q <= cap -> kn * B <= cap -> same (gridv n q B) (mul_vector_ mmul v tm1) (mul_vector_ mul v tm1).
Proof.
  intros [L F] Hq HB. unfold mul_vector_. eapply same_weaken; [apply same_mapM with (1 := F)|].
  - intros a Ga. apply negr_grid; eassumption.
  - intros r [Lr Fr]. split; [congruence|exact Fr].
Qed.
Lemma sub_vectors_grid n q B C u v : gridv n q B u -> gridv n q C v -> kd * q <= cap -> kn * C <= cap -> q * q <= cap -> (B + C) * q <= cap ->
  same (gridv n q (B + C)) (sub_vectors_ madd mmul u v) (sub_vectors_ add mul u v).
Proof.
  intros Gu Gv H1 H2 H3 H4. unfold sub_vectors_. eapply same_bind; [apply neg_vector_grid; eassumption|]. intros z Gz. apply add_vectors_grid; assumption.
Qed.
(** A sum of products. *)
Lemma acc_grid n q p A B C a u v : on_grid (kd * (q * p)) A a -> gridv n q B u -> gridv n p C v -> 0 <= B -> 0 <= C ->
  kd * (q * p) * (kd * (q * p)) <= cap -> kn * (B * C) <= cap -> B <= cap -> (A + Z.of_nat n * (kn * (B * C))) * (kd * (q * p)) <= cap ->
  same (on_grid (kd * (q * p)) (A + Z.of_nat n * (kn * (B * C)))) (acc_ madd mmul a u v) (acc_ add mul a u v).
Proof.
  revert n v A a. induction u as [|x xs IH]; intros n [|y ys] A a Ga [L F] [L' F'] PB PC H1 H2 H3 H4; cbn [length] in L, L'; subst n; try discriminate; cbn [acc_].
  - apply same_ret. eapply grid_weaken; [exact Ga|]. lia.
  - inversion F as [|? ? Gx Fx]; inversion F' as [|? ? Gy Fy]; subst. pose proof (proj1 Gx) as Pq. pose proof (proj1 Gy) as Pp. assert (Pg : 1 <= kd * (q * p)) by nia.
    assert (PA := grid_pos _ _ _ Ga). assert (0 <= kn * (B * C)) by (apply Z.mul_nonneg_nonneg; [lia|apply Z.mul_nonneg_nonneg; assumption]).
    eapply same_bind; [apply (mo_mul _ _ _ _ _ _ _ K); [exact Gx|exact Gy|nia|exact H2|exact H3]|]. intros z Gz.
    eapply same_bind; [apply (mo_add _ _ _ _ _ _ _ K); [exact Ga|exact Gz|exact H1|]|].
    + eapply Z.le_trans; [|exact H4]. apply Z.mul_le_mono_nonneg_r; [lia|]. rewrite Nat2Z.inj_succ. nia.
    + intros a' Ga'. rewrite Nat2Z.inj_succ in *. replace (A + Z.succ (Z.of_nat (length xs)) * (kn * (B * C))) with (A + kn * (B * C) + Z.of_nat (length xs) * (kn * (B * C))) in * by (unfold Z.succ; ring).
      apply IH; try assumption; (split; [lia|assumption]).
Qed.
(** The vector product of two vectors of length 3. *)
Lemma outer_grid q p B C u v : gridv 3 q B u -> gridv 3 p C v -> 0 <= B -> 0 <= C ->
  kd * (kd * (q * p)) <= cap -> kd * (q * p) * (kd * (q * p)) <= cap -> kn * (kn * (B * C)) <= cap -> B <= cap -> 2 * (kn * (B * C)) * (kd * (q * p)) <= cap ->
  same (gridv 3 (kd * (q * p)) (2 * (kn * (B * C)))) (outer_product_ madd mmul u v) (outer_product_ add mul u v).
Proof.
  intros Gu Gv PB PC H0 H1 H2 H3 H4. unfold outer_product_.
  assert (PX : 0 <= kn * (B * C)) by (apply Z.mul_nonneg_nonneg; [lia|apply Z.mul_nonneg_nonneg; assumption]).
  assert (Pg : 1 <= kd * (q * p)). { destruct (gridv_nth _ _ _ _ 0 Gu) as (x & _ & Gx); [lia|]. destruct (gridv_nth _ _ _ _ 0 Gv) as (y & _ & Gy); [lia|]. pose proof (proj1 Gx). pose proof (proj1 Gy). nia. }
  assert (S2 : forall x y, on_grid (kd * (q * p)) (kn * (B * C)) x -> on_grid (kd * (q * p)) (kn * (B * C)) y -> same (on_grid (kd * (q * p)) (2 * (kn * (B * C)))) (sub_ madd mmul x y) (sub_ add mul x y)).
  { intros x y Gx Gy. replace (2 * (kn * (B * C))) with (kn * (B * C) + kn * (B * C)) in * by ring. apply sub_grid; assumption. }
  assert (M2 : forall x y, on_grid q B x -> on_grid p C y -> same (on_grid (kd * (q * p)) (kn * (B * C))) (mmul x y) (mul x y)).
  { intros x y Gx Gy. apply (mo_mul _ _ _ _ _ _ _ K); try assumption; nia. }
  repeat first [eapply same_get; [first [exact Gu|exact Gv]|lia|]; intros ? ?
               |eapply same_bind; [apply M2; eassumption|]; intros ? ?
               |eapply same_bind; [apply S2; eassumption|]; intros ? ?].
  apply same_ret. split; [reflexivity|]. repeat (apply Forall_cons; [assumption|]). apply Forall_nil.
Qed.
Lemma inner_grid n q p B C u v : gridv n q B u -> gridv n p C v -> 0 <= B -> 0 <= C -> 0 < q -> 0 < p ->
  kd * (q * p) * (kd * (q * p)) <= cap -> kn * (B * C) <= cap -> B <= cap -> Z.of_nat n * (kn * (B * C)) * (kd * (q * p)) <= cap ->
  same (fun r => exists t, r = Some t /\ on_grid (kd * (q * p)) (Z.of_nat n * (kn * (B * C))) t) (inner_product_ madd mmul u v) (inner_product_ add mul u v).
Proof.
  intros Gu Gv PB PC Pq Pp H1 H2 H3 H4. unfold inner_product_. rewrite (proj1 Gu), (proj1 Gv), Nat.eqb_refl.
  eapply same_bind; [apply (acc_grid n q p 0 B C); try eassumption; apply grid_t0; [nia|lia]|]. intros a Ga. apply same_ret. exists a. split; [reflexivity|exact Ga].
Qed.
(** An integer row times a vector. *)
Definition rowsum (r : list Z) : Z := fold_right Z.add 0 (map Z.abs r).
Lemma rowsum_pos r : 0 <= rowsum r.
Proof. unfold rowsum. induction r; cbn; lia. Qed.
Lemma accz_grid q A B a r v : on_grid q A a -> gridv (length r) q B v -> 0 <= B -> kd * q <= cap -> q * q <= cap -> kn * (rowsum r * B) <= cap -> rowsum r <= cap -> (A + rowsum r * B) * q <= cap ->
  same (on_grid q (A + rowsum r * B)) (accz_ madd mmul a r v) (accz_ add mul a r v).
Proof.
  revert v A a. induction r as [|x xs IH]; intros [|y ys] A a Ga [L F] PB H1 H2 H3 H4 H5; cbn [length] in L; try discriminate; cbn [accz_].
  - apply same_ret. eapply grid_weaken; [exact Ga|]. unfold rowsum; cbn. lia.
  - inversion F as [|? ? Gy Fy]; subst. pose proof (rowsum_pos xs). assert (PA := grid_pos _ _ _ Ga). pose proof (proj1 Ga) as Pq.
    change (rowsum (x :: xs)) with (Z.abs x + rowsum xs) in *. assert (0 <= Z.abs x * B) by nia. assert (0 <= rowsum xs * B) by nia.
    eapply same_bind; [apply (mo_rat_l _ _ _ _ _ _ _ K q B x 1 y); [lia|exact Gy|lia|nia|lia]|]. intros z Gz. rewrite Z.mul_1_r in Gz.
    eapply same_bind; [apply (mo_add _ _ _ _ _ _ _ K); [exact Ga|exact Gz|exact H2|]|].
    + eapply Z.le_trans; [|exact H5]. apply Z.mul_le_mono_nonneg_r; lia.
    + intros a' Ga'. replace (A + (Z.abs x + rowsum xs) * B) with (A + Z.abs x * B + rowsum xs * B) in * by ring. apply IH; try assumption; try nia. split; [lia|exact Fy].
Qed.
Definition narrow (n : nat) (s : Z) (m : list (list Z)) : Prop := length m = n /\ Forall (fun r => length r = n /\ rowsum r <= s) m.
Lemma dot_grid n q B s m v : narrow n s m -> (0 < n)%nat -> gridv n q B v -> 0 <= B -> 0 <= s <= cap -> kd * q <= cap -> q * q <= cap -> kn * (s * B) <= cap -> s * B * q <= cap ->
  same (fun r => exists u, r = Some u /\ gridv n q (s * B) u) (dot_product_1_ madd mmul m v) (dot_product_1_ add mul m v).
Proof.
  intros [Lm Fm] Hn Gv PB Hs H1 H2 H3 H4. unfold dot_product_1_.
  assert (N : ncols m = n). { destruct m as [|r m]; [cbn in Lm; lia|]. inversion Fm as [|? ? [Lr _] _]; subst. exact Lr. }
  rewrite N, (proj1 Gv), Nat.eqb_refl. pose proof (gridv_nth _ _ _ _ 0 Gv Hn) as (x & _ & Gx). pose proof (proj1 Gx) as Pq.
  eapply same_bind; [apply same_mapM with (1 := Fm) (Q := on_grid q (s * B))|].
  - intros r [Lr Rr]. pose proof (rowsum_pos r). assert (rowsum r * B <= s * B) by (apply Z.mul_le_mono_nonneg_r; assumption).
    eapply same_weaken; [apply (accz_grid q 0 B t0 r v)|]; try assumption.
    + apply grid_t0; lia.
    + rewrite Lr. exact Gv.
    + eapply Z.le_trans; [|exact H3]. apply Z.mul_le_mono_nonneg_l; lia.
    + lia.
    + rewrite Z.add_0_l. eapply Z.le_trans; [|exact H4]. apply Z.mul_le_mono_nonneg_r; lia.
    + intros u Gu. eapply grid_weaken; [exact Gu|]. lia.
  - intros u [Lu Fu]. apply same_ret. exists u. split; [reflexivity|]. split; [congruence|exact Fu].
Qed.
(** One symmetry operation about a centre. *)
Lemma symop_grid n q B C s m v c : narrow n s m -> (0 < n)%nat -> gridv n q B v -> gridv n q C c -> 0 <= B -> 0 <= C -> 1 <= s <= cap -> kd * q <= cap -> q * q <= cap -> kn * (s * (B + C)) <= cap -> (s * (B + C) + C) * q <= cap ->
  same (gridv n q (s * (B + C) + C)) (symop_vec_ madd mmul m v c) (symop_vec_ add mul m v c).
Proof.
  intros Nm Hn Gv Gc PB PC Hs H1 H2 H3 H4. pose proof (gridv_nth _ _ _ _ 0 Gv Hn) as (x & _ & Gx). pose proof (proj1 Gx) as Pq. unfold symop_vec_.
  assert (B + C <= s * (B + C)) by nia. assert (0 <= (s * (B + C)) * q) by nia. assert (0 <= C * q) by nia. assert (s * (B + C) <= cap) by nia.
  eapply same_bind; [apply (sub_vectors_grid n q B C); try assumption; nia|]. intros d Gd.
  eapply same_bind; [apply (dot_grid n q (B + C) s); try assumption; nia|]. intros r (u & -> & Gu). cbn [notNone bind]. apply add_vectors_grid; assumption.
Qed.
(** ** Projections and centroids *)
Definition coef (q q' B s : Z) (c : tau) : Prop := forall x, on_grid q B x -> same (on_grid q' (s * B)) (mmul c x) (mul c x).
Lemma mtrixcal_grid q q' B c1 c2 c3 c4 c5 c6 s1 s2 s3 s4 s5 s6 v : gridv 6 q B v -> 0 <= B -> 0 < q' -> 0 <= s1 -> 0 <= s2 -> 0 <= s3 -> 0 <= s4 -> 0 <= s5 -> 0 <= s6 ->
  coef q q' B s1 c1 -> coef q q' B s2 c2 -> coef q q' B s3 c3 -> coef q q' B s4 c4 -> coef q q' B s5 c5 -> coef q q' B s6 c6 ->
  q' * q' <= cap -> (s1 + s2 + s3 + s4 + s5 + s6) * B * q' <= cap ->
  same (on_grid q' ((s1 + s2 + s3 + s4 + s5 + s6) * B)) (mtrixcal_ madd mmul c1 c2 c3 c4 c5 c6 v) (mtrixcal_ add mul c1 c2 c3 c4 c5 c6 v).
Proof.
  intros Gv PB Pq P1 P2 P3 P4 P5 P6 C1 C2 C3 C4 C5 C6 H1 H2. unfold mtrixcal_.
  do 6 (eapply same_get; [exact Gv|lia|]; intros ? ?; eapply same_bind; [match goal with C : coef _ _ _ _ ?c |- same _ (mmul ?c _) _ => apply C; assumption end|]; intros ? ?).
  assert (Mo : forall s, 0 <= s <= s1 + s2 + s3 + s4 + s5 + s6 -> s * B * q' <= cap).
  { intros s [Ps Ls]. eapply Z.le_trans; [|exact H2]. apply Z.mul_le_mono_nonneg_r; [lia|]. apply Z.mul_le_mono_nonneg_r; assumption. }
  clear H2.
  assert (Ad : forall s s' x y, 0 <= s -> on_grid q' (s * B) x -> on_grid q' (s' * B) y -> (s + s') * B * q' <= cap -> same (on_grid q' ((s + s') * B)) (madd x y) (add x y)).
  { intros s s' u1 u2 Ps Gx Gy Hx. rewrite Z.mul_add_distr_r in *. apply (mo_add _ _ _ _ _ _ _ K); assumption. }
  eapply same_bind; [apply (Ad s1 s2); try eassumption; try lia; apply Mo; lia|]. intros ? ?.
  eapply same_bind; [apply (Ad (s1 + s2) s3); try eassumption; try lia; apply Mo; lia|]. intros ? ?.
  eapply same_bind; [apply (Ad (s1 + s2 + s3) s4); try eassumption; try lia; apply Mo; lia|]. intros ? ?.
  eapply same_bind; [apply (Ad (s1 + s2 + s3 + s4) s5); try eassumption; try lia; apply Mo; lia|]. intros ? ?.
  apply (Ad (s1 + s2 + s3 + s4 + s5) s6); try eassumption; try lia; apply Mo; lia.
Qed.
Lemma coord_sum_grid q A B a ps i : on_grid q A a -> grids 6 q B ps -> (i < 6)%nat -> 0 <= B -> q * q <= cap -> (A + Z.of_nat (length ps) * B) * q <= cap ->
  same (on_grid q (A + Z.of_nat (length ps) * B)) (foldM (fun v2 p => bind (get p i) (fun x => madd v2 x)) a ps) (foldM (fun v2 p => bind (get p i) (fun x => add v2 x)) a ps).
Proof.
  intros Ga Gp Hi PB Hq. revert A a Ga. induction Gp as [|p ps Gv _ IH]; intros A a Ga HA; cbn [foldM length] in *.
  - apply same_ret. eapply grid_weaken; [exact Ga|]. lia.
  - rewrite Nat2Z.inj_succ in *. replace (A + Z.succ (Z.of_nat (length ps)) * B) with (A + B + Z.of_nat (length ps) * B) in * by (unfold Z.succ; ring).
    pose proof (grid_pos _ _ _ Ga). pose proof (proj1 Ga). assert (0 <= Z.of_nat (length ps) * B) by nia.
    eapply same_bind; [|intros b Gb; apply IH; [exact Gb|exact HA]].
    eapply same_get; [exact Gv|exact Hi|]. intros x Gx. apply (mo_add _ _ _ _ _ _ _ K); [exact Ga|exact Gx|exact Hq|]. eapply Z.le_trans; [|exact HA]. apply Z.mul_le_mono_nonneg_r; lia.
Qed.
Lemma centroid_grid q B ps : grids 6 q B ps -> ps <> [] -> 0 <= B -> 0 < q -> q * q <= cap -> Z.of_nat (length ps) * B * q <= cap -> kd * (q * Z.of_nat (length ps)) <= cap -> kn * (Z.of_nat (length ps) * B) <= cap ->
  same (gridv 6 (q * Z.of_nat (length ps)) (Z.of_nat (length ps) * B)) (centroid_ madd mmul ps) (centroid_ add mul ps).
Proof.
  intros Gp Np PB Pq H1 H2 H3 H4. assert (Pn : 0 < Z.of_nat (length ps)) by (destruct ps; [congruence|cbn [length]; lia]). unfold centroid_.
  eapply same_weaken; [apply same_mapM with (P := fun i => (i < 6)%nat) (Q := on_grid (q * Z.of_nat (length ps)) (Z.of_nat (length ps) * B))|].
  - apply Forall_forall. intros i Hi. apply in_seq in Hi. lia.
  - intros i Hi. eapply same_bind; [apply (coord_sum_grid q 0 B); [apply grid_t0; lia|exact Gp|exact Hi|exact PB|exact H1|rewrite Z.add_0_l; exact H2]|]. rewrite Z.add_0_l. intros s Gs.
    assert (0 <= Z.of_nat (length ps) * B) by nia.
    eapply same_weaken; [apply (mo_rat_r _ _ _ _ _ _ _ K q (Z.of_nat (length ps) * B) 1 (Z.of_nat (length ps)) s)|]; try assumption; change (Z.abs 1) with 1; rewrite ?Z.mul_1_l; try assumption; [nia|].
    intros r Gr. exact Gr.
  - intros r [L F]. split; [exact L|exact F].
Qed.
(** ** Whole objects *)
Lemma shift_grid n q B C o s : grido n q B o -> gridv n q C s -> q * q <= cap -> (B + C) * q <= cap ->
  same (fun r => exists o', r = Some o' /\ grido n q (B + C) o') (shift_object_ madd (A4 o) s) (shift_object_ add (A4 o) s).
Proof.
  intros Go Gs Hq HB. cbn [shift_object_]. eapply same_bind; [apply same_mapM with (1 := Go) (Q := grids n q (B + C))|].
  - intros t Gt. eapply same_weaken; [apply same_mapM with (1 := Gt) (Q := gridv n q (B + C))|].
    + intros v Gv. apply add_vectors_grid; assumption.
    + intros r [_ F]. exact F.
  - intros r [_ F]. apply same_ret. exists r. split; [reflexivity|exact F].
Qed.
Lemma symop_vecs_grid n q B C s m vs c : narrow n s m -> (0 < n)%nat -> grids n q B vs -> gridv n q C c -> 0 <= B -> 0 <= C -> 1 <= s <= cap -> kd * q <= cap -> q * q <= cap -> kn * (s * (B + C)) <= cap -> (s * (B + C) + C) * q <= cap ->
  same (grids n q (s * (B + C) + C)) (symop_vecs_ madd mmul m vs c) (symop_vecs_ add mul m vs c).
Proof.
  intros Nm Hn Gv Gc PB PC Hs H1 H2 H3 H4. unfold symop_vecs_. eapply same_weaken; [apply same_mapM with (1 := Gv) (Q := gridv n q (s * (B + C) + C))|].
  - intros v Hv. apply symop_grid; assumption.
  - intros r [_ F]. exact F.
Qed.
Lemma symmetric_grid n q B C s ms o c : Forall (narrow n s) ms -> (0 < n)%nat -> grido n q B o -> gridv n q C c -> 0 <= B -> 0 <= C -> 1 <= s <= cap -> kd * q <= cap -> q * q <= cap -> kn * (s * (B + C)) <= cap -> (s * (B + C) + C) * q <= cap ->
  same (fun r => exists o', r = Some (A4 o') /\ grido n q (s * (B + C) + C) o') (generator_obj_symmetric_obj_ madd mmul ms (A4 o) c) (generator_obj_symmetric_obj_ add mul ms (A4 o) c).
Proof.
  intros Nm Hn Go Gc PB PC Hs H1 H2 H3 H4. cbn [generator_obj_symmetric_obj_]. eapply same_bind; [apply same_mapM with (1 := Nm) (Q := grido n q (s * (B + C) + C))|].
  - intros m Hm. eapply same_weaken; [apply same_mapM with (1 := Go) (Q := grids n q (s * (B + C) + C))|].
    + intros vs Hv. apply symop_vecs_grid; assumption.
    + intros r [_ F]. exact F.
  - intros r [_ F]. apply same_ret. exists (concat r). split; [reflexivity|]. unfold grido in *. apply Forall_concat. exact F.
Qed.
End GridVectors.
