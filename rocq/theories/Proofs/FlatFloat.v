(** The coplanarity test of points of one horizontal plane, in binary64. *)
From Coq Require Import Reals List ZArith Bool Lia Lra Psatz.
From Flocq Require Import Core IEEE754.BinarySingleNaN IEEE754.Binary IEEE754.Bits.
From Verif Require Import Base.Res Model.Tau Model.Arr Model.Num Model.IcoNumeric
  Spec.LinAlg Spec.Value Spec.RVec Spec.Space Spec.Tetra Spec.Plane Spec.Float
  Proofs.NumLemmas Proofs.IntersectLemmas Proofs.CoplanarLemmas Proofs.RoundLemmas Proofs.FloatCalc Proofs.FloatGeom Proofs.SegFloat.
Import ListNotations.
Local Open Scope R_scope.
Local Notation Bnum := Bmath.

Section Lib.
Context {la : linalg} {LA : linalg_ok la}.

(** A point of the plane: the third coordinate is the same double for all of them. *)
Definition lev (z : binary64) (x : Num.pt Bnum) (p : R3) : Prop := P E0 x p /\ bnd 600 p /\ snd x = z.
(** A difference of two such points. *)
Definition hor (x : Num.pt Bnum) (p : R3) : Prop :=
  let '(x0, x1, x2) := x in let '(p0, p1, _) := p in apx x0 p0 E1 /\ apx x1 p1 E1 /\ Rabs p0 <= 1200 /\ Rabs p1 <= 1200 /\ Bfin x2 = true /\ Bv x2 = 0.

Lemma hor_diff z x y p r : lev z x p -> lev z y r -> hor (psub Bnum x y) (sub3 p r).
Proof.
  destruct x as [[x0 x1] x2], y as [[y0 y1] y2], p as [[p0 p1] p2], r as [[r0 r1] r2]. intros ((X0 & X1 & X2) & (A0 & A1 & A2) & Zx) ((Y0 & Y1 & Y2) & (B0 & B1 & B2) & Zy). cbn [snd] in Zx, Zy. subst x2 y2. cbn [psub sub3 hor].
  destruct (diff1 _ _ _ _ X0 Y0 A0 B0) as [D0 C0]. destruct (diff1 _ _ _ _ X1 Y1 A1 B1) as [D1 C1].
  destruct X2 as [Fz _]. destruct (bminus_err z z Fz Fz) as [[Fd _] Zd]; [replace (Bv z - Bv z) with 0 by ring; apply big500'; rewrite Rabs_R0; lra|].
  repeat (split; [assumption|]). apply Zd. ring.
Qed.
Lemma mul0 x y : Bfin x = true -> Bfin y = true -> (Bv x = 0 \/ Bv y = 0) -> Bfin (fmul Bnum x y) = true /\ Bv (fmul Bnum x y) = 0.
Proof.
  intros Fx Fy Z. assert (E : Bv x * Bv y = 0) by (destruct Z as [-> | ->]; ring). destruct (bmult_err x y Fx Fy) as [[Fd _] Zd]; [rewrite E; apply big500'; rewrite Rabs_R0; lra|]. auto.
Qed.
Lemma sub0 x y : Bfin x = true -> Bfin y = true -> Bv x = 0 -> Bv y = 0 -> Bfin (fsub Bnum x y) = true /\ Bv (fsub Bnum x y) = 0.
Proof.
  intros Fx Fy Zx Zy. assert (E : Bv x - Bv y = 0) by (rewrite Zx, Zy; ring). destruct (bminus_err x y Fx Fy) as [[Fd _] Zd]; [rewrite E; apply big500'; rewrite Rabs_R0; lra|]. auto.
Qed.
Lemma prod_B x y p r : apx x p E1 -> apx y r E1 -> Rabs p <= 1200 -> Rabs r <= 1200 -> apx (fmul Bnum x y) (p * r) (4/1000000000) /\ Rabs (p * r) <= 1500000.
Proof.
  intros [Fx Hx] [Fy Hy] Bp Br. destruct (prod1 _ _ _ _ Hx Hy Bp Br) as [Hp Hb]. rewrite <- Rabs_mult in Hb. pose proof eta_25 as Et.
  destruct (bmult_err x y Fx Fy) as [[Fd Hd] _]; [apply big500'; lra|]. split.
  - split; [exact Fd|]. replace (Bv (fmul Bnum x y) - p * r) with ((Bv (fmul Bnum x y) - Bv x * Bv y) + (Bv x * Bv y - p * r)) by ring. pose proof (tri2 _ _ _ _ Hd Hp). unfold ulp1, E1 in *. lra.
  - rewrite Rabs_mult. pose proof (Rabs_pos p). pose proof (Rabs_pos r). nra.
Qed.

(** Normal vectors. *)
Definition nrm (n : Num.pt Bnum) (d : R) : Prop :=
  let '(n0, n1, n2) := n in Bfin n0 = true /\ Bv n0 = 0 /\ Bfin n1 = true /\ Bv n1 = 0 /\ apx n2 d (1/10000000) /\ Rabs d <= 3000000.
Lemma nrm_cross x y p r : hor x p -> hor y r -> nrm (pcross Bnum x y) (det2 p r).
Proof.
  destruct x as [[x0 x1] x2], y as [[y0 y1] y2], p as [[p0 p1] p2], r as [[r0 r1] r2]. intros (X0 & X1 & A0 & A1 & F2 & Z2) (Y0 & Y1 & B0 & B1 & G2 & W2). cbn [pcross nrm det2].
  assert (Q0 : Bfin x0 = true) by apply X0. assert (Q1 : Bfin x1 = true) by apply X1. assert (R0' : Bfin y0 = true) by apply Y0. assert (R1' : Bfin y1 = true) by apply Y1.
  destruct (mul0 x1 y2 Q1 G2 (or_intror W2)) as [Fa Va]. destruct (mul0 x2 y1 F2 R1' (or_introl Z2)) as [Fb Vb]. destruct (mul0 x2 y0 F2 R0' (or_introl Z2)) as [Fc Vc]. destruct (mul0 x0 y2 Q0 G2 (or_intror W2)) as [Fd Vd].
  destruct (sub0 _ _ Fa Fb Va Vb) as [U0 V0]. destruct (sub0 _ _ Fc Fd Vc Vd) as [U1 V1]. repeat (split; [assumption|]).
  destruct (prod_B _ _ _ _ X0 Y1 A0 B1) as [[Fe He] Be]. destruct (prod_B _ _ _ _ X1 Y0 A1 B0) as [[Ff Hf] Bf]. pose proof eta_25 as Et.
  split; [|pose proof (tri2m _ _ _ _ Be Bf); lra].
  assert (K : Rabs ((Bv (fmul Bnum x0 y1) - Bv (fmul Bnum x1 y0)) - (p0 * r1 - p1 * r0)) <= 8/1000000000).
  { match goal with |- Rabs ?t <= _ => replace t with ((Bv (fmul Bnum x0 y1) - p0 * r1) - (Bv (fmul Bnum x1 y0) - p1 * r0)) by ring end. pose proof (tri2m _ _ _ _ He Hf). lra. }
  assert (B : Rabs (Bv (fmul Bnum x0 y1) - Bv (fmul Bnum x1 y0)) <= 3000001).
  { replace (Bv (fmul Bnum x0 y1) - Bv (fmul Bnum x1 y0)) with ((p0 * r1 - p1 * r0) + ((Bv (fmul Bnum x0 y1) - Bv (fmul Bnum x1 y0)) - (p0 * r1 - p1 * r0))) by ring. pose proof (tri2 _ _ _ _ (tri2m _ _ _ _ Be Bf) K). lra. }
  destruct (bminus_err _ _ Fe Ff) as [[Fn Hn] _]; [apply big500'; lra|]. split; [exact Fn|].
  match goal with |- Rabs (?t - _) <= _ => replace (t - (p0 * r1 - p1 * r0)) with ((t - (Bv (fmul Bnum x0 y1) - Bv (fmul Bnum x1 y0))) + ((Bv (fmul Bnum x0 y1) - Bv (fmul Bnum x1 y0)) - (p0 * r1 - p1 * r0))) by ring end.
  pose proof (tri2 _ _ _ _ Hn K). unfold ulp1 in *. lra.
Qed.
Lemma nrm_small n d : nrm n d -> (Rabs d <= 5/10000000 -> small Bnum n = true) /\ (2/1000000 <= Rabs d -> small Bnum n = false).
Proof.
  destruct n as [[n0 n1] n2]. intros (F0 & Z0 & F1 & Z1 & [F2 H2] & _). destruct EPS_B as [Fe He]. unfold small.
  assert (E : 9/10000000 <= Bv (EPS Bnum) <= 11/10000000) by (unfold Rabs in He; destruct (Rcase_abs _); lra).
  rewrite (blt_true (fabs Bnum n0) (EPS Bnum)), (blt_true (fabs Bnum n1) (EPS Bnum)); try (apply babs_fin; assumption); try exact Fe; try (rewrite babs_val, ?Z0, ?Z1, Rabs_R0; lra). cbn [andb].
  pose proof (Rabs_triang_inv2 (Bv n2) d) as T. assert (T' : Rabs (Rabs (Bv n2) - Rabs d) <= 1/10000000) by lra. clear T. split; intros Hd.
  - apply blt_true; [apply babs_fin, F2|exact Fe|]. rewrite babs_val. unfold Rabs at 1 in T'. destruct (Rcase_abs _); lra.
  - apply blt_false; [apply babs_fin, F2|exact Fe|]. rewrite babs_val. unfold Rabs at 1 in T'. destruct (Rcase_abs _); lra.
Qed.
Lemma f10_B : Bfin (f1e10 Bnum) = true /\ 1/20000000000 <= Bv (f1e10 Bnum).
Proof.
  change (f1e10 Bnum) with (fdiv Bnum (fZ Bnum 1) (fZ Bnum 10000000000)).
  destruct (apx_Z 1) as [[F1 _] V1]; [cbn; lia|]. destruct (apx_Z 10000000000) as [[F2 _] V2]; [cbn; lia|].
  destruct (bdiv_err (fZ Bnum 1) (fZ Bnum 10000000000) F1 F2) as [[Fx Hx] _]; [rewrite V2; lra|rewrite V1, V2; apply big500'; rewrite Rabs_right; lra|].
  split; [exact Fx|]. rewrite V1, V2 in Hx. rewrite (Rabs_right (1 / 10000000000)) in Hx by lra. pose proof eta_25. unfold ulp1 in Hx. unfold Rabs in Hx. destruct (Rcase_abs _); lra.
Qed.
Lemma nrm_near n d x p : nrm n d -> hor x p -> flt Bnum (fabs Bnum (pdot Bnum n x)) (f1e10 Bnum) = true.
Proof.
  destruct n as [[n0 n1] n2], x as [[x0 x1] x2], p as [[p0 p1] p2]. intros (F0 & Z0 & F1 & Z1 & [F2 H2] & Bd) ([Fx0 X0] & [Fx1 X1] & A0 & A1 & G2 & W2).
  pose proof p200 as P2. assert (E1s : E1 <= 1) by (unfold E1; lra).
  assert (RN : row_le (bpow radix2 200) (n0, n1, n2)).
  { split; [|split]; (split; [assumption|]); [change (Rabs (Bv n0) <= bpow radix2 200); rewrite Z0, Rabs_R0; lra|change (Rabs (Bv n1) <= bpow radix2 200); rewrite Z1, Rabs_R0; lra|].
    change (Rabs (Bv n2) <= bpow radix2 200). replace (Bv n2) with (d + (Bv n2 - d)) by ring. pose proof (tri2 _ _ _ _ Bd H2). lra. }
  assert (RX : row_le (bpow radix2 200) (x0, x1, x2)).
  { split; [|split]; (split; [assumption|]); [change (Rabs (Bv x0) <= bpow radix2 200); replace (Bv x0) with (p0 + (Bv x0 - p0)) by ring; pose proof (tri2 _ _ _ _ A0 X0); lra|change (Rabs (Bv x1) <= bpow radix2 200); replace (Bv x1) with (p1 + (Bv x1 - p1)) by ring; pose proof (tri2 _ _ _ _ A1 X1); lra|].
    change (Rabs (Bv x2) <= bpow radix2 200). rewrite W2, Rabs_R0. lra. }
  destruct (proj1 LA _ _ RN RX) as (Fd & Hd & _). cbn [val3 abs3 dot3] in Hd. change (B2R 53 1024) with Bv in Hd. rewrite Z0, Z1, W2, Rabs_R0 in Hd. 
  destruct f10_B as [Ft Ht]. cbn [pdot]. apply blt_true; [apply babs_fin; exact Fd|exact Ft|]. rewrite babs_val. change (Bv (fdot Bnum [n0; n1; n2] [x0; x1; x2])) with (Bv (la_dot [n0; n1; n2] [x0; x1; x2])).
  set (w := Bv (la_dot _ _)) in *. clearbody w.
  assert (T0 : bpow radix2 (-1000) <= 1/1000000000000000). { apply Rle_trans with (bpow radix2 (-60)); [apply bpow_le; lia|]. cbn. lra. }
  assert (Hw : Rabs w <= 1/1000000000000000).
  { match type of Hd with Rabs ?t <= ?b => replace t with w in Hd by ring; replace b with (bpow radix2 (-1000)) in Hd by ring end. lra. }
  lra.
Qed.

(** The whole test. *)
Section List_.
Variables (z : binary64) (ps : list (Num.pt Bnum)) (rs : list R3).
Hypothesis HF : Forall2 (lev z) ps rs.
Lemma F2_nth i x : nth_error ps i = Some x -> exists p, nth_error rs i = Some p /\ lev z x p.
Proof.
  revert i. induction HF as [|y q l m H Hl IH]; intros [|i] E; try discriminate E; cbn in *; [injection E as <-; eauto|exact (IH Hl i E)].
Qed.
(** Twice the area of the triangle of a sample. *)
Definition span (d : nat * nat * nat) (A : R) : Prop :=
  let '(i, j, k) := d in exists pi pj pk, nth_error rs i = Some pi /\ nth_error rs j = Some pj /\ nth_error rs k = Some pk /\ A = Rabs (det2 (sub3 pj pi) (sub3 pk pi)).
Lemma normal_B d : valid_draw (length ps) d -> exists n a, triple_normal Bnum ps d = Ok n /\ nrm n a /\ span d (Rabs a).
Proof.
  destruct d as [[i j] k]. intros (Hi & Hj & Hk & _). destruct (get_lt ps i Hi) as (xi & Ei & Ni). destruct (get_lt ps j Hj) as (xj & Ej & Nj). destruct (get_lt ps k Hk) as (xk & Ek & Nk).
  destruct (F2_nth i xi Ni) as (pi & Mi & Li). destruct (F2_nth j xj Nj) as (pj & Mj & Lj). destruct (F2_nth k xk Nk) as (pk & Mk & Lk).
  exists (pcross Bnum (psub Bnum xj xi) (psub Bnum xk xi)), (det2 (sub3 pj pi) (sub3 pk pi)). split; [unfold triple_normal; rewrite Ei, Ej, Ek; reflexivity|].
  split; [apply nrm_cross; apply (hor_diff z); assumption|]. exists pi, pj, pk. auto.
Qed.
Lemma first_good_B draws : Forall (valid_draw (length ps)) draws ->
  (first_good Bnum ps draws = Ok None /\ (forall d A, In d draws -> span d A -> A < 2/1000000)) \/
  (exists d n a, In d draws /\ first_good Bnum ps draws = Ok (Some (d, n)) /\ nrm n a /\ (exists A, span d A /\ 5/10000000 < A)).
Proof.
  induction 1 as [|d draws Hd _ IH]; cbn [first_good]; [left; split; [reflexivity|intros d A []]|].
  destruct (normal_B d Hd) as (n & a & En & Hn & Sp). rewrite En. cbn [bind]. destruct (nrm_small n a Hn) as [S1 S2]. destruct (small Bnum n) eqn:Es.
  - destruct IH as [[E Fl]|(d' & n' & a' & Hin & E & H)].
    + left. split; [exact E|]. intros d' A [<-|Hin] SA; [|exact (Fl d' A Hin SA)]. apply Rnot_le_lt. intros L. destruct d as [[i j] k].
      destruct Sp as (pi & pj & pk & Mi & Mj & Mk & EA). destruct SA as (pi' & pj' & pk' & Mi' & Mj' & Mk' & EA').
      assert (pi = pi') by congruence. assert (pj = pj') by congruence. assert (pk = pk') by congruence. subst pi' pj' pk'. rewrite <- EA in EA'. subst A. specialize (S2 L). congruence.
    + right. exists d', n', a'. cbn [In]. tauto.
  - right. exists d, n, a. split; [left; reflexivity|]. split; [reflexivity|]. split; [exact Hn|]. exists (Rabs a). split; [exact Sp|]. apply Rnot_le_lt. intros L. specialize (S1 L). congruence.
Qed.
Lemma all_near_B n a x0 p0 l : nrm n a -> lev z x0 p0 -> Forall (fun i => (i < length ps)%nat) l -> all_near Bnum ps n x0 l = Ok true.
Proof.
  intros Hn L0. induction 1 as [|i l Hi _ IH]; cbn [all_near]; [reflexivity|]. destruct (get_lt ps i Hi) as (x & Ex & Nx). destruct (F2_nth i x Nx) as (p & _ & Lp). rewrite Ex. cbn [bind].
  rewrite (nrm_near n a _ _ Hn (hor_diff z x x0 p p0 Lp L0)). exact IH.
Qed.
Lemma coplanar_B draws : Forall (valid_draw (length ps)) draws -> exists o, coplanar_check_numeric Bnum draws ps = Ok o /\ (o = Some true \/ o = None) /\
  ((length ps <= 3)%nat -> o = Some true) /\
  (forall d A, In d draws -> span d A -> 2/1000000 <= A -> o = Some true) /\
  ((3 < length ps)%nat -> (forall d A, In d draws -> span d A -> A <= 5/10000000) -> o = None).
Proof.
  intros V. unfold coplanar_check_numeric. destruct (Nat.ltb_spec 3 (length ps)) as [L|L].
  - destruct (first_good_B draws V) as [[E Fl]|(d & n & a & Hin & E & Hn & A & SA & LA')]; rewrite E; cbn [bind].
    + exists None. split; [reflexivity|]. split; [right; reflexivity|]. split; [lia|]. split; [intros d A Hd SA LA'; specialize (Fl d A Hd SA); lra|reflexivity].
    + exists (Some true). destruct d as [[i j] k]. rewrite Forall_forall in V. pose proof (V _ Hin) as (Hi & _). destruct (get_lt ps i Hi) as (x & Ex & Nx). destruct (F2_nth i x Nx) as (p & _ & Lp). cbn [fst]. rewrite Ex. cbn [bind].
      rewrite (all_near_B n a x p _ Hn Lp) by (apply Forall_forall; intros y Hy; apply others_spec in Hy; apply Hy). cbn [bind]. split; [reflexivity|]. split; [left; reflexivity|]. split; [lia|]. split; [reflexivity|].
      intros _ Sm. specialize (Sm _ A Hin SA). lra.
  - exists (Some true). split; [reflexivity|]. split; [left; reflexivity|]. split; [reflexivity|]. split; [reflexivity|lia].
Qed.
End List_.
End Lib.
