(** Sorting of sets of vectors: C98. *)
From Coq Require Import Reals List ZArith Lia Lra Bool Permutation.
From Verif Require Import Base.Res Model.Tau Model.Arr Model.Num Model.IcoNumeric Model.DodeIntersect Model.Sorting
  Spec.Value Spec.RVec Spec.Shape Spec.IcoSpec Spec.DodeSpec Spec.Space Spec.Plane Spec.Samples Spec.Float Spec.SortSpec.
Import ListNotations.
Local Open Scope R_scope.
Local Existing Instance textbook.

From Coq Require Import Psatz.
From Verif Require Import Model.DodeNumeric Proofs.ResLemmas Proofs.Irrational Proofs.NumLemmas Proofs.PlaneLemmas Proofs.RoundLemmas Proofs.FloatCalc Proofs.FloatGeom Proofs.DodeFloat Proofs.SortLemmas.

Lemma mapM_ok {A B} (f : A -> res B) l : Forall (fun a => exists b, f a = Ok b) l -> exists bs, mapM f l = Ok bs.
Proof. induction 1 as [|a l (b & E) _ (bs & IH)]; cbn [mapM]; [eauto|]. rewrite E. cbn [bind]. rewrite IH. cbn [bind]. eauto. Qed.
Lemma internal_total N v : length v = 6%nat -> exists p, internal N v = Ok p.
Proof. intros L. destruct v as [|v0 [|v1 [|v2 [|v3 [|v4 [|v5 [|]]]]]]]; try discriminate L. eexists. reflexivity. Qed.
Lemma dinternal_total N v : length v = 6%nat -> exists p, dinternal N v = Ok p.
Proof. intros L. destruct v as [|v0 [|v1 [|v2 [|v3 [|v4 [|v5 [|]]]]]]]; try discriminate L. eexists. reflexivity. Qed.

(** C98: whatever the arithmetic, sorting a set of 6-dimensional vectors returns the same
    vectors, each as often as it was given. *)
Lemma L_C98_permutes : forall N argsort vs, arranges argsort -> Forall (fun v => length v = 6%nat) vs ->
  (exists r, sort_vctors N argsort (A3 vs) = Ok r /\ Permutation r vs) /\
  (exists r, dsort_vctors N argsort (A3 vs) = Ok r /\ Permutation r vs).
Proof.
  intros N argsort vs H L. split.
  - destruct (mapM_ok (internal N) vs) as (ps & E); [eapply Forall_impl; [|exact L]; apply internal_total|].
    destruct (sort_ok N _ argsort vs ps E H) as (r & Er & P & _). eauto.
  - destruct (mapM_ok (dinternal N) vs) as (ps & E); [eapply Forall_impl; [|exact L]; apply dinternal_total|].
    destruct (sort_ok N _ argsort vs ps E H) as (r & Er & P & _). eauto.
Qed.

Lemma sort_order (N : num) (internal : vec -> res (pt N)) argsort vs r : (exists ps, mapM internal vs = Ok ps) -> arranges argsort -> orders (fle N) argsort ->
  (forall v w p q, In v vs -> In w vs -> internal v = Ok p -> internal w = Ok q -> fle N (fst (fst p)) (fst (fst q)) = true \/ fle N (fst (fst q)) (fst (fst p)) = true) ->
  sort_vctors_ N internal argsort (A3 vs) = Ok r ->
  forall i j v w, (i < j)%nat -> nth_error r i = Some v -> nth_error r j = Some w ->
    exists p q, In v vs /\ In w vs /\ internal v = Ok p /\ internal w = Ok q /\ fle N (fst (fst p)) (fst (fst q)) = true.
Proof.
  intros (ps & M) H1 H2 C E i j v w L Ei Ej. destruct (sort_ok N internal argsort vs ps M H1) as (r' & Er & _ & Q). assert (r' = r) by congruence. subst r'.
  destruct (Q i v Ei) as (a & p & A1 & A2 & A3 & A4). destruct (Q j w Ej) as (b & q & B1 & B2 & B3 & B4).
  exists p, q. split; [eapply nth_error_In; eassumption|]. split; [eapply nth_error_In; eassumption|]. split; [exact A4|]. split; [exact B4|].
  apply (H2 (map (fun '(x, _, _) => x) ps)) with (i := i) (j := j) (a := a) (b := b); try assumption.
  - intros x y Ix Iy. apply in_map_iff in Ix as (p' & Ep & Ip). apply in_map_iff in Iy as (q' & Eq & Iq).
    assert (K : forall p, In p ps -> exists v, In v vs /\ internal v = Ok p).
    { clear -M. apply mapM_Forall2 in M. induction M as [|u s us ss Hu M IH]; intros p I; [contradiction|]. destruct I as [<-|I]; [exists u; cbn; auto|].
      destruct (IH p I) as (v & Iv & Ev). exists v. cbn; auto. }
    destruct (K p' Ip) as (v' & Iv & Ev). destruct (K q' Iq) as (w' & Iw & Ew). pose proof (C v' w' p' q' Iv Iw Ev Ew) as X.
    destruct p' as [[? ?] ?], q' as [[? ?] ?]. cbn [fst] in X. subst. exact X.
  - erewrite map_nth_error; [|exact A3]. destruct p as [[? ?] ?]. reflexivity.
  - erewrite map_nth_error; [|exact B3]. destruct q as [[? ?] ?]. reflexivity.
Qed.
Lemma first_fst (p : R3) : first p = fst (fst p). Proof. destruct p as [[? ?] ?]. reflexivity. Qed.
Lemma fle_R x y : fle Rnum x y = true <-> x <= y.
Proof. apply Rleb_true. Qed.

(** In exact arithmetic the result is in ascending order of the first perpendicular coordinate. *)
Lemma L_C98_sorted : forall argsort vs, arranges argsort -> orders (fle Rnum) argsort -> Forall (fun v => length v = 6%nat) vs ->
  (forall r, sort_vctors Rnum argsort (A3 vs) = Ok r ->
     forall i j v w, (i < j)%nat -> nth_error r i = Some v -> nth_error r j = Some w -> first (pp v) <= first (pp w)) /\
  (forall r, dsort_vctors Rnum argsort (A3 vs) = Ok r ->
     forall i j v w, (i < j)%nat -> nth_error r i = Some v -> nth_error r j = Some w -> first (dp v) <= first (dp w)).
Proof.
  intros argsort vs H1 H2 L. rewrite Forall_forall in L.
  assert (T : forall x y : R, fle Rnum x y = true \/ fle Rnum y x = true) by (intros x y; rewrite !fle_R; lra).
  split; intros r E i j v w Lt Ei Ej.
  - assert (M : exists ps, mapM (internal Rnum) vs = Ok ps) by (apply mapM_ok, Forall_forall; intros u I; exact (internal_total Rnum u (L u I))).
    destruct (sort_order Rnum _ argsort vs r M H1 H2 (fun _ _ p q _ _ _ _ => T (fst (fst p)) (fst (fst q))) E i j v w Lt Ei Ej) as (p & q & Iv & Iw & Ep & Eq & R).
    rewrite (internal_R v (L v Iv)) in Ep. rewrite (internal_R w (L w Iw)) in Eq. injection Ep as Hp; injection Eq as Hq. apply fle_R in R. rewrite !first_fst. rewrite Hp, Hq. exact R.
  - assert (M : exists ps, mapM (dinternal Rnum) vs = Ok ps) by (apply mapM_ok, Forall_forall; intros u I; exact (dinternal_total Rnum u (L u I))).
    destruct (sort_order Rnum _ argsort vs r M H1 H2 (fun _ _ p q _ _ _ _ => T (fst (fst p)) (fst (fst q))) E i j v w Lt Ei Ej) as (p & q & Iv & Iw & Ep & Eq & R).
    rewrite (dinternal_R v (L v Iv)) in Ep. rewrite (dinternal_R w (L w Iw)) in Eq. injection Ep as Hp; injection Eq as Hq. apply fle_R in R. rewrite !first_fst. rewrite Hp, Hq. exact R.
Qed.

Lemma P_first E x p : P E x p -> Bfin (fst (fst x)) = true /\ Rabs (Bv (fst (fst x)) - first p) <= E.
Proof. destruct x as [[? ?] ?], p as [[? ?] ?]. intros (H & _). exact H. Qed.
Lemma sort_apx (internal : vec -> res (pt Bnum)) (f : vec -> R3) A argsort vs r : 
  (forall v, In v vs -> exists x, internal v = Ok x /\ P (10 * A / 2251799813685248) x (f v)) -> arranges argsort -> orders (fle Bnum) argsort ->
  sort_vctors_ Bnum internal argsort (A3 vs) = Ok r ->
  forall i j v w, (i < j)%nat -> nth_error r i = Some v -> nth_error r j = Some w -> first (f v) <= first (f w) + 20 * A / 2^51.
Proof.
  intros H H1 H2 E i j v w Lt Ei Ej. 
  assert (M : exists ps, mapM internal vs = Ok ps) by (apply mapM_ok, Forall_forall; intros u I; destruct (H u I) as (x & Ex & _); exists x; exact Ex).
  assert (C : forall v w p q, In v vs -> In w vs -> internal v = Ok p -> internal w = Ok q -> fle Bnum (fst (fst p)) (fst (fst q)) = true \/ fle Bnum (fst (fst q)) (fst (fst p)) = true).
  { intros v' w' p q Iv Iw Ep Eq. destruct (H v' Iv) as (p' & Ep' & Hp). destruct (H w' Iw) as (q' & Eq' & Hq). assert (p' = p) by congruence. assert (q' = q) by congruence. subst p' q'.
    apply P_first in Hp as [Fp _], Hq as [Fq _]. rewrite (ble_spec _ _ Fp Fq), (ble_spec _ _ Fq Fp). lra. }
  destruct (sort_order Bnum internal argsort vs r M H1 H2 C E i j v w Lt Ei Ej) as (p & q & Iv & Iw & Ep & Eq & R).
  destruct (H v Iv) as (p' & Ep' & Hp). destruct (H w Iw) as (q' & Eq' & Hq). assert (p' = p) by congruence. assert (q' = q) by congruence. subst p' q'.
  apply P_first in Hp as [Fp Hp], Hq as [Fq Hq]. apply (ble_spec _ _ Fp Fq) in R. replace (2^51) with 2251799813685248 by ring.
  unfold Rabs in Hp, Hq. destruct (Rcase_abs _) in Hp; destruct (Rcase_abs _) in Hq; lra.
Qed.

(** In binary64 it is in that order up to 20 A / 2^51 for coordinates of size A. *)
Lemma L_C98_binary64 : forall A argsort vs, 1 <= A <= 1000000 -> Forall (coefs A) vs -> arranges argsort -> orders (fle Bnum) argsort ->
  (forall r, sort_vctors Bnum argsort (A3 vs) = Ok r ->
     forall i j v w, (i < j)%nat -> nth_error r i = Some v -> nth_error r j = Some w -> first (pp v) <= first (pp w) + 20 * A / 2^51) /\
  (forall r, dsort_vctors Bnum argsort (A3 vs) = Ok r ->
     forall i j v w, (i < j)%nat -> nth_error r i = Some v -> nth_error r j = Some w -> first (dp v) <= first (dp w) + 20 * A / 2^51).
Proof.
  intros A argsort vs HA C H1 H2. rewrite Forall_forall in C. split; intros r E.
  - apply (sort_apx (internal Bnum) pp A argsort vs r); auto. intros v I. exact (internal_B A v HA (C v I)).
  - apply (sort_apx (dinternal Bnum) dp A argsort vs r); auto. intros v I. exact (dinternal_B A v HA (C v I)).
Qed.

Definition wide : vec := iv [5000000000000007; 8090169943749485; 0; 0; 0; 0]%Z.
Definition narrow : vec := iv [3; 4; 0; 0; 0; 0]%Z.
Lemma wide_lt : first (pp wide) < first (pp narrow).
Proof.
  assert (TAU < 8090169943749481 / 5000000000000004). 
  { pose proof TAU_sq. pose proof TAU_bounds. apply Rnot_le_lt. intros H1. nra. }
  unfold pp, wide, narrow, iv, vals. cbn [map]. unfold perp, matvec, perp_rows. cbn. unfold dot, val; cbn. lra.
Qed.
Lemma wide_float p q : internal Bnum wide = Ok p -> internal Bnum narrow = Ok q -> fle Bnum (fst (fst p)) (fst (fst q)) = false /\ fle Bnum (fst (fst q)) (fst (fst p)) = true.
Proof.
  assert (E : match internal Bnum wide, internal Bnum narrow with Ok p, Ok q => (fle Bnum (fst (fst p)) (fst (fst q)), fle Bnum (fst (fst q)) (fst (fst p))) | _, _ => (true, false) end = (false, true)).
  { match goal with |- _ = ?r => vm_cast_no_check (eq_refl r) end. }
  intros Ep Eq. rewrite Ep, Eq in E. split; congruence.
Qed.
(** For large coordinates the order in binary64 is wrong: two vectors whose first coordinates
    differ by more than 1/4 come in descending order, whatever the sorting algorithm. *)
Lemma L_C98_large_refuted : exists vs, Forall (good 6) vs /\ forall argsort, arranges argsort -> orders (fle Bnum) argsort ->
  exists v w, sort_vctors Bnum argsort (A3 vs) = Ok [v; w] /\ first (pp w) + 1/4 < first (pp v).
Proof.
  exists [wide; narrow]. split.
  { repeat (apply Forall_cons; [split; [unfold wfv, wide, narrow, iv; cbn [map]; repeat (apply Forall_cons; [unfold wf; cbn [ta tb tc]; lia|]); apply Forall_nil|reflexivity]|]). apply Forall_nil. }
  intros argsort H1 H2. exists narrow, wide. split.
  - assert (L : Forall (fun v => length v = 6%nat) [wide; narrow]) by (repeat constructor).
    destruct (L_C98_permutes Bnum argsort _ H1 L) as [(r & Er & Pr) _].
    assert (R : r = [wide; narrow] \/ r = [narrow; wide]).
    { apply Permutation_sym, Permutation_length_2_inv in Pr. exact Pr. }
    destruct R as [R | R]; [|congruence]. exfalso. subst r.
    assert (M : exists ps, mapM (internal Bnum) [wide; narrow] = Ok ps) by (apply mapM_ok; eapply Forall_impl; [|exact L]; apply internal_total).
    destruct (internal_total Bnum wide eq_refl) as (p0 & E0). destruct (internal_total Bnum narrow eq_refl) as (q0 & E1).
    destruct (wide_float p0 q0 E0 E1) as [W1 W2].
    assert (Self : fle Bnum (fst (fst p0)) (fst (fst p0)) = true /\ fle Bnum (fst (fst q0)) (fst (fst q0)) = true).
    { assert (E : match internal Bnum wide, internal Bnum narrow with Ok p, Ok q => (fle Bnum (fst (fst p)) (fst (fst p)), fle Bnum (fst (fst q)) (fst (fst q))) | _, _ => (false, false) end = (true, true)).
      { match goal with |- _ = ?r => vm_cast_no_check (eq_refl r) end. }
      rewrite E0, E1 in E. split; congruence. }
    assert (C : forall v w p q, In v [wide; narrow] -> In w [wide; narrow] -> internal Bnum v = Ok p -> internal Bnum w = Ok q -> fle Bnum (fst (fst p)) (fst (fst q)) = true \/ fle Bnum (fst (fst q)) (fst (fst p)) = true).
    { intros v w p q [<-|[<-|[]]] [<-|[<-|[]]] Ep Eq; rewrite ?E0, ?E1 in Ep; rewrite ?E0, ?E1 in Eq; injection Ep as <-; injection Eq as <-; tauto. }
    destruct (sort_order Bnum _ argsort _ _ M H1 H2 C Er 0%nat 1%nat wide narrow ltac:(lia) eq_refl eq_refl) as (p & q & _ & _ & Ep & Eq & X). 
    destruct (wide_float p q Ep Eq) as [W3 _]. congruence.
  - assert (TAU < 32360679774997923 / 20000000000000016).
    { pose proof TAU_sq. pose proof TAU_bounds. apply Rnot_le_lt. intros H3. nra. }
    unfold pp, wide, narrow, iv, vals. cbn [map]. unfold perp, matvec, perp_rows. cbn. unfold dot, val; cbn. lra.
Qed.

Lemma ble_trans x y z : fle Bnum x y = true -> fle Bnum y z = true -> fle Bnum x z = true.
Proof.
  destruct (Bfin x) eqn:Fx; destruct (Bfin y) eqn:Fy; destruct (Bfin z) eqn:Fz.
  { rewrite (ble_spec x y Fx Fy), (ble_spec y z Fy Fz), (ble_spec x z Fx Fz). lra. }
  all: destruct x as [|[]| |[]]; try discriminate Fx; destruct y as [|[]| |[]]; try discriminate Fy; destruct z as [|[]| |[]]; try discriminate Fz; cbn; intros; try discriminate; reflexivity.
Qed.
(** A sorting algorithm as required exists, in exact arithmetic and in binary64. *)
Example E_C98 : arranges (argsort_of (fle Rnum)) /\ orders (fle Rnum) (argsort_of (fle Rnum)) /\ arranges (argsort_of (fle Bnum)) /\ orders (fle Bnum) (argsort_of (fle Bnum)) /\
  Forall (coefs 4) [narrow; iv [0; 1; 0; 0; 0; 0]%Z; iv [1; 0; 0; 0; 0; 0]%Z] /\
  sort_vctors Bnum (argsort_of (fle Bnum)) (A3 [narrow; iv [0; 1; 0; 0; 0; 0]; iv [1; 0; 0; 0; 0; 0]])%Z = Ok [iv [0; 1; 0; 0; 0; 0]; narrow; iv [1; 0; 0; 0; 0; 0]]%Z.
Proof.
  split; [apply argsort_arranges|]. split. { apply argsort_orders. intros x y z. rewrite !fle_R. lra. }
  split; [apply argsort_arranges|]. split; [apply argsort_orders; exact ble_trans|]. split.
  - unfold narrow, iv. cbn [map]. repeat (apply Forall_cons; [split; [reflexivity|]; repeat (apply Forall_cons; [cbn; repeat split; try lia; unfold Rabs; repeat destruct (Rcase_abs _); lra|]); constructor|]). constructor.
  - match goal with |- _ = ?r => vm_cast_no_check (eq_refl r) end.
Qed.
