(** The boundary of a finite edge-to-edge union of triangles of a plane is the union of the
    edges that belong to one triangle only. *)
From Coq Require Import Reals List ZArith Lia Lra Psatz Bool Classical.
From Verif Require Import Spec.Value Spec.RVec Spec.Sets Spec.Space Spec.Plane Spec.Outline
  Proofs.NumLemmas Proofs.PlaneLemmas Proofs.Polytope.
Import ListNotations.
Local Open Scope R_scope.

(** Twice the signed area of the triangle p, q, x. *)
Definition D (p q x : R3) : R := det2 (sub3 q p) (sub3 x p).
Lemma D_cyc p q r : D q r p = D p q r. Proof. unfold D. p3 p; p3 q; p3 r. cbn. ring. Qed.
Lemma D_swap p q r : D q p r = - D p q r. Proof. unfold D. p3 p; p3 q; p3 r. cbn. ring. Qed.
Lemma D_pp p x : D p p x = 0. Proof. unfold D. p3 p; p3 x. cbn. ring. Qed.
Lemma D_pxp p x : D p x p = 0. Proof. unfold D. p3 p; p3 x. cbn. ring. Qed.
Lemma D_px x p : D x p p = 0. Proof. unfold D. p3 p; p3 x. cbn. ring. Qed.
Lemma D_sum p q r x : D p q x + D q r x + D r p x = D p q r. Proof. unfold D. p3 p; p3 q; p3 r; p3 x. cbn. ring. Qed.
Definition line (s : R) (p q : R3) : R3 := add3 p (scale3 s (sub3 q p)).
Lemma D_line p q a b s : D p q (line s a b) = (1 - s) * D p q a + s * D p q b.
Proof. unfold D, line. p3 p; p3 q; p3 a; p3 b. cbn. ring. Qed.
Lemma line_sym s p q : line s p q = line (1 - s) q p.
Proof. unfold line. p3 p; p3 q. cbn. eq3; ring. Qed.
Lemma line_0 p q : line 0 p q = p. Proof. unfold line. p3 p; p3 q. cbn. eq3; ring. Qed.
Lemma line_1 p q : line 1 p q = q. Proof. unfold line. p3 p; p3 q. cbn. eq3; ring. Qed.

Lemma hull2_line p q x : hull [p; q] x <-> exists s, 0 <= s <= 1 /\ x = line s p q.
Proof.
  split.
  - intros (ws & (L & S & E) & P). destruct ws as [|a [|b [|]]]; try discriminate L. cbn in S.
    inversion P as [|? ? Ha P']; subst. inversion P' as [|? ? Hb _]; subst. exists b. split; [lra|].
    replace a with (1 - b) by lra. unfold line. p3 p; p3 q. cbn. unfold o3. eq3; ring.
  - intros (s & Hs & ->). exists [1 - s; s]. split; [split; [reflexivity|split; [cbn; ring|]]|constructor; [lra|constructor; [lra|constructor]]].
    unfold line. p3 p; p3 q. cbn. unfold o3. eq3; ring.
Qed.
Lemma hull_swap p q x : hull [p; q] x <-> hull [q; p] x.
Proof. split; intros H; apply (hull_trans _ _ _ H); intros y Hy; apply hull_mem; cbn in *; tauto. Qed.

(** A point of a segment divides it into two. *)
Lemma hull_divide p q r : hull [q; r] p -> forall x, hull [q; r] x <-> hull [p; q] x \/ hull [p; r] x.
Proof.
  intros H x. split.
  - intros Hx. apply hull2_line in H as (s & Hs & ->). apply hull2_line in Hx as (t & Ht & ->).
    destruct (Rle_dec t s) as [Hts|Hts].
    + left. apply hull2_line. destruct (Req_dec s 0) as [->|Ns]; [exists 0; split; [lra|]; replace t with 0 by lra; rewrite !line_0; reflexivity|].
      exists (1 - t / s). split.
      * assert (0 <= t / s <= 1); [|lra]. split; [apply Rmult_le_pos; [lra|left; apply Rinv_0_lt_compat; lra]|]. apply (Rmult_le_reg_r s); [lra|]. unfold Rdiv. rewrite Rmult_assoc, Rinv_l by lra. lra.
      * unfold line. p3 q; p3 r. cbn. eq3; field; lra.
    + right. apply hull2_line. exists ((t - s) / (1 - s)). split.
      * split; [apply Rmult_le_pos; [lra|left; apply Rinv_0_lt_compat; lra]|]. apply (Rmult_le_reg_r (1 - s)); [lra|]. unfold Rdiv. rewrite Rmult_assoc, Rinv_l by lra. lra.
      * unfold line. p3 q; p3 r. cbn. eq3; field; lra.
  - intros [Hx|Hx]; apply (hull_trans _ _ _ Hx); intros y [<-|[<-|[]]]; try exact H; apply hull_mem; cbn; tauto.
Qed.

Section Plane.
Variable h : R.
Definition P (x y : R) : R3 := (x, y, h).
Lemma P_height a b : height (P a b) = h. Proof. reflexivity. Qed.
Lemma P_of p : height p = h -> p = P (fst (fst p)) (snd (fst p)).
Proof. p3 p. unfold height. cbn. intros ->. reflexivity. Qed.
Lemma line_height s p q : height p = h -> height q = h -> height (line s p q) = h.
Proof. p3 p; p3 q. unfold height, line. cbn. intros -> ->. ring. Qed.
Lemma hull_h ps x : Forall (fun p => height p = h) ps -> hull ps x -> height x = h.
Proof. intros F (ws & B & _). exact (bary_height h ws ps x B F). Qed.

(** The triangle as three inequalities. *)
Lemma hull3_D p q r x : height p = h -> height q = h -> height r = h -> height x = h -> D p q r <> 0 ->
  (hull [p; q; r] x <-> 0 <= D p q x * D p q r /\ 0 <= D q r x * D p q r /\ 0 <= D r p x * D p q r).
Proof.
  intros Hp Hq Hr Hx N. split.
  - intros (ws & B & Pw). destruct (bary3 _ _ _ _ _ B) as (w0 & w1 & w2 & -> & _).
    destruct (bary3_dets _ _ _ _ _ _ _ B) as (E0 & E1 & E2). inversion Pw as [|? ? P0 Pw1]; subst. inversion Pw1 as [|? ? P1 Pw2]; subst. inversion Pw2 as [|? ? P2 _]; subst.
    assert (S : 0 <= D p q r * D p q r) by nra.
    assert (A0 : D q r x = w0 * D p q r) by (unfold D; rewrite E0; p3 p; p3 q; p3 r; p3 x; cbn; ring).
    assert (A1 : D r p x = w1 * D p q r) by (unfold D; rewrite E1; p3 p; p3 q; p3 r; p3 x; cbn; ring).
    assert (A2 : D p q x = w2 * D p q r) by (unfold D; rewrite E2; p3 p; p3 q; p3 r; p3 x; cbn; ring).
    rewrite A0, A1, A2, !Rmult_assoc. repeat split; apply Rmult_le_pos; assumption.
  - intros (A & B & C).
    exists [D q r x / D p q r; D r p x / D p q r; D p q x / D p q r].
    assert (K : forall d, 0 <= d * D p q r -> 0 <= d / D p q r).
    { intros d Hd. replace (d / D p q r) with (d * D p q r * / (D p q r * D p q r)) by (field; exact N).
      apply Rmult_le_pos; [exact Hd|]. left. apply Rinv_0_lt_compat. nra. }
    split; [|constructor; [auto|constructor; [auto|constructor; [auto|constructor]]]].
    split; [reflexivity|]. split.
    + cbn. pose proof (D_sum p q r x). field_simplify; [|exact N]. apply (Rmult_eq_reg_r (D p q r)); [|exact N]. unfold Rdiv. rewrite Rmult_assoc, Rinv_l by exact N. lra.
    + revert N. unfold D. rewrite (P_of p Hp), (P_of q Hq), (P_of r Hr), (P_of x Hx). p3 p; p3 q; p3 r; p3 x. cbn. unfold P, o3. intros N. eq3; field; exact N.
Qed.

(** Neighbourhoods (squares). *)
Definition nb (x : R3) (Q : R3 -> Prop) : Prop :=
  exists e, 0 < e /\ forall a b, Rabs (a - fst (fst x)) < e -> Rabs (b - snd (fst x)) < e -> Q (P a b).
Lemma nb_and x Q Q' : nb x Q -> nb x Q' -> nb x (fun y => Q y /\ Q' y).
Proof.
  intros (e & He & H) (e' & He' & H'). exists (Rmin e e'). split; [apply Rmin_glb_lt; assumption|].
  intros a b Ha Hb. pose proof (Rmin_l e e'). pose proof (Rmin_r e e'). split; [apply H|apply H']; lra.
Qed.
Lemma nb_imp x (Q Q' : R3 -> Prop) : (forall y, height y = h -> Q y -> Q' y) -> nb x Q -> nb x Q'.
Proof. intros I (e & He & H). exists e. split; [exact He|]. intros a b Ha Hb. apply I; [reflexivity|]. apply H; assumption. Qed.
Lemma nb_all {A} (l : list A) x (Q : A -> R3 -> Prop) : (forall t, In t l -> nb x (Q t)) -> nb x (fun y => forall t, In t l -> Q t y).
Proof.
  induction l as [|t l IH]; intros H; [exists 1; split; [lra|intros a b _ _ u []]|].
  assert (H1 : nb x (Q t)) by (apply H; left; reflexivity). assert (H2 : nb x (fun y => forall u, In u l -> Q u y)) by (apply IH; intros u Hu; apply H; right; exact Hu).
  apply (nb_imp x (fun y => Q t y /\ forall u, In u l -> Q u y)); [|apply nb_and; assumption]. intros y _ [A1 A2] u [<-|Hu]; auto.
Qed.
Lemma nb_pos x (f : R3 -> R) (al be ga : R) : height x = h -> (forall a b, f (P a b) = al * a + be * b + ga) -> 0 < f x -> nb x (fun y => 0 < f y).
Proof.
  intros Hx Hf Fx. rewrite (P_of x Hx), Hf in Fx. set (a0 := fst (fst x)) in *. set (b0 := snd (fst x)) in *. set (v := al * a0 + be * b0 + ga) in *.
  pose proof (Rabs_pos al) as Pa. pose proof (Rabs_pos be) as Pb.
  exists (v / (Rabs al + Rabs be + 1)). assert (W : 0 < Rabs al + Rabs be + 1) by lra. split; [apply Rdiv_lt_0_compat; lra|].
  intros a b Ha Hb. fold a0 in Ha. fold b0 in Hb. rewrite Hf. set (e := v / (Rabs al + Rabs be + 1)) in *. assert (Ee : e * (Rabs al + Rabs be + 1) = v) by (unfold e; field; lra).
  assert (E : al * a + be * b + ga = v + (al * (a - a0) + be * (b - b0))) by (unfold v; ring). rewrite E.
  assert (Pe : 0 < e) by (unfold e; apply Rdiv_lt_0_compat; lra).
  assert (K1 : - (Rabs al * e) <= al * (a - a0)).
  { assert (H1 : Rabs (al * (a - a0)) <= Rabs al * e) by (rewrite Rabs_mult; apply Rmult_le_compat_l; lra). pose proof (Rle_abs (- (al * (a - a0)))) as H2; rewrite Rabs_Ropp in H2; lra. }
  assert (K2 : - (Rabs be * e) <= be * (b - b0)).
  { assert (H1 : Rabs (be * (b - b0)) <= Rabs be * e) by (rewrite Rabs_mult; apply Rmult_le_compat_l; lra). pose proof (Rle_abs (- (be * (b - b0)))) as H2; rewrite Rabs_Ropp in H2; lra. }
  lra.
Qed.
Lemma nb_D x p q k : height x = h -> 0 < D p q x * k -> nb x (fun y => 0 < D p q y * k).
Proof.
  intros Hx H. destruct p as [[p0 p1] p2], q as [[q0 q1] q2].
  apply (nb_pos x (fun y => D (p0, p1, p2) (q0, q1, q2) y * k) (- (q1 - p1) * k) ((q0 - p0) * k) (((q1 - p1) * p0 - (q0 - p0) * p1) * k) Hx); [|exact H].
  intros a b. unfold D, P. cbn. ring.
Qed.
Lemma nb_dot x (p q : R3) k : height x = h -> 0 < k * dot3 p (sub3 x q) -> nb x (fun y => 0 < k * dot3 p (sub3 y q)).
Proof.
  intros Hx H. destruct p as [[p0 p1] p2], q as [[q0 q1] q2].
  apply (nb_pos x (fun y => k * dot3 (p0, p1, p2) (sub3 y (q0, q1, q2))) (k * p0) (k * p1) (k * (- p0 * q0 - p1 * q1 + p2 * (h - q2))) Hx); [|exact H].
  intros a b. unfold P. cbn. ring.
Qed.
Lemma nb_point x (Q : R3 -> Prop) : height x = h -> nb x Q -> Q x.
Proof. intros Hx (e & He & H). rewrite (P_of x Hx). apply H; rewrite Rminus_diag_eq, Rabs_R0 by reflexivity; exact He. Qed.
(** Small steps from x towards z. *)
Lemma nb_step x z (Q : R3 -> Prop) : height x = h -> height z = h -> nb x Q -> exists d, 0 < d /\ forall s, Rabs s < d -> Q (line s x z).
Proof.
  intros Hx Hz (e & He & H). rewrite (P_of x Hx), (P_of z Hz) in *. set (a := fst (fst x)) in *. set (b := snd (fst x)) in *. set (a' := fst (fst z)) in *. set (b' := snd (fst z)) in *.
  cbn [fst snd P] in H. pose proof (Rabs_pos (a' - a)) as P1. pose proof (Rabs_pos (b' - b)) as P2.
  set (m := Rabs (a' - a) + Rabs (b' - b) + 1). assert (Pm : 0 < m) by (unfold m; lra). exists (e / m). split; [apply Rdiv_lt_0_compat; assumption|].
  intros s Hs. assert (El : line s (P a b) (P a' b') = P (a + s * (a' - a)) (b + s * (b' - b))) by (unfold line, P; cbn; eq3; ring). rewrite El.
  assert (Em : e / m * m = e) by (field; lra). pose proof (Rabs_pos s) as P3.
  apply H; [replace (a + s * (a' - a) - a) with (s * (a' - a)) by ring|replace (b + s * (b' - b) - b) with (s * (b' - b)) by ring]; rewrite Rabs_mult.
  - apply Rle_lt_trans with (Rabs s * m); [apply Rmult_le_compat_l; [exact P3|unfold m; lra]|]. rewrite <- Em. apply Rmult_lt_compat_r; assumption.
  - apply Rle_lt_trans with (Rabs s * m); [apply Rmult_le_compat_l; [exact P3|unfold m; lra]|]. rewrite <- Em. apply Rmult_lt_compat_r; assumption.
Qed.

(** Triangles and segments are closed. *)
Lemma nb_out3 p q r x : height p = h -> height q = h -> height r = h -> height x = h -> D p q r <> 0 -> ~ hull [p; q; r] x -> nb x (fun y => ~ hull [p; q; r] y).
Proof.
  intros Hp Hq Hr Hx N Nx.
  assert (C : D p q x * D p q r < 0 \/ D q r x * D p q r < 0 \/ D r p x * D p q r < 0).
  { apply NNPP. intros C. apply Nx. apply hull3_D; try assumption. repeat split; apply Rnot_lt_le; tauto. }
  destruct C as [C|[C|C]]; [apply (nb_imp x (fun y => 0 < D p q y * - D p q r))|apply (nb_imp x (fun y => 0 < D q r y * - D p q r))|apply (nb_imp x (fun y => 0 < D r p y * - D p q r))];
    try (apply nb_D; [exact Hx|lra]); intros y Hy Ly Iy; apply hull3_D in Iy; try assumption; lra.
Qed.
Lemma nb_out2 p q x : height p = h -> height q = h -> height x = h -> p <> q -> ~ hull [p; q] x -> nb x (fun y => ~ hull [p; q] y).
Proof.
  intros Hp Hq Hx Npq Nx. destruct (Req_dec (D p q x) 0) as [E|N].
  - set (u := sub3 q p). assert (Pu : 0 < dot3 u u).
    { unfold u. rewrite (P_of p Hp), (P_of q Hq) in *. unfold P. cbn. assert (K : fst (fst q) - fst (fst p) <> 0 \/ snd (fst q) - snd (fst p) <> 0).
      { apply NNPP. intros K. apply Npq. unfold P. assert (A1 : fst (fst q) - fst (fst p) = 0) by (apply NNPP; tauto). assert (A2 : snd (fst q) - snd (fst p) = 0) by (apply NNPP; tauto). eq3; lra. }
      destruct K as [K|K]; [pose proof (Rsqr_pos_lt _ K) as L; pose proof (Rle_0_sqr (snd (fst q) - snd (fst p)))|pose proof (Rsqr_pos_lt _ K) as L; pose proof (Rle_0_sqr (fst (fst q) - fst (fst p)))]; unfold Rsqr in *; nra. }
    set (s := dot3 u (sub3 x p) / dot3 u u).
    assert (Ex : x = line s p q).
    { unfold s, u in *. revert E Pu. unfold D, line. rewrite (P_of p Hp), (P_of q Hq), (P_of x Hx). unfold P. cbn.
      generalize (fst (fst p)) (snd (fst p)) (fst (fst q)) (snd (fst q)) (fst (fst x)) (snd (fst x)). intros p0 p1 q0 q1 x0 x1 E Pu.
      assert (E' : (q0 - p0) * (x1 - p1) = (q1 - p1) * (x0 - p0)) by lra. set (dn := (q0 - p0) * (q0 - p0) + (q1 - p1) * (q1 - p1) + (h - h) * (h - h)) in *.
      eq3.
      - apply (Rmult_eq_reg_r dn); [|lra]. replace ((p0 + ((q0 - p0) * (x0 - p0) + (q1 - p1) * (x1 - p1) + (h - h) * (h - h)) / dn * (q0 - p0)) * dn) with (p0 * dn + ((q0 - p0) * (x0 - p0) + (q1 - p1) * (x1 - p1)) * (q0 - p0)) by (field; lra).
        unfold dn. replace (((q0 - p0) * (x0 - p0) + (q1 - p1) * (x1 - p1)) * (q0 - p0)) with ((q0 - p0) * (q0 - p0) * (x0 - p0) + (q1 - p1) * ((q0 - p0) * (x1 - p1))) by ring. rewrite E'. ring.
      - apply (Rmult_eq_reg_r dn); [|lra]. replace ((p1 + ((q0 - p0) * (x0 - p0) + (q1 - p1) * (x1 - p1) + (h - h) * (h - h)) / dn * (q1 - p1)) * dn) with (p1 * dn + ((q0 - p0) * (x0 - p0) + (q1 - p1) * (x1 - p1)) * (q1 - p1)) by (field; lra).
        unfold dn. replace (((q0 - p0) * (x0 - p0) + (q1 - p1) * (x1 - p1)) * (q1 - p1)) with ((q1 - p1) * (q1 - p1) * (x1 - p1) + (q0 - p0) * ((q1 - p1) * (x0 - p0))) by ring. rewrite <- E'. ring.
      - field. lra. }
    assert (Cs : s < 0 \/ 1 < s).
    { apply NNPP. intros K. apply Nx. apply hull2_line. exists s. split; [|exact Ex]. split; apply Rnot_lt_le; tauto. }
    assert (Ed : forall t, dot3 u (sub3 (line t p q) p) = t * dot3 u u) by (intros t; unfold u, line; p3 p; p3 q; cbn; ring).
    assert (Eq : forall t, dot3 u (sub3 (line t p q) q) = (t - 1) * dot3 u u) by (intros t; unfold u, line; p3 p; p3 q; cbn; ring).
    destruct Cs as [Cs|Cs].
    + apply (nb_imp x (fun y => 0 < (-1) * dot3 u (sub3 y p))).
      * intros y Hy Ly Iy. apply hull2_line in Iy as (t & Ht & ->). rewrite Ed in Ly. nra.
      * apply nb_dot; [exact Hx|]. rewrite Ex, Ed. nra.
    + apply (nb_imp x (fun y => 0 < 1 * dot3 u (sub3 y q))).
      * intros y Hy Ly Iy. apply hull2_line in Iy as (t & Ht & ->). rewrite Eq in Ly. nra.
      * apply nb_dot; [exact Hx|]. rewrite Ex, Eq. nra.
  - apply (nb_imp x (fun y => 0 < D p q y * D p q x)).
    + intros y Hy Ly Iy. apply hull2_line in Iy as (t & Ht & ->). rewrite D_line, D_pxp, D_px in Ly. lra.
    + apply nb_D; [exact Hx|]. nra.
Qed.
(** A point with positive coordinates is an inner point. *)
Lemma nb_in3 p q r x : height p = h -> height q = h -> height r = h -> height x = h -> D p q r <> 0 ->
  0 < D p q x * D p q r -> 0 < D q r x * D p q r -> 0 < D r p x * D p q r -> nb x (hull [p; q; r]).
Proof.
  intros Hp Hq Hr Hx N A B C.
  apply (nb_imp x (fun y => 0 < D p q y * D p q r /\ 0 < D q r y * D p q r /\ 0 < D r p y * D p q r)).
  - intros y Hy (A' & B' & C'). apply hull3_D; try assumption. lra.
  - repeat apply nb_and; apply nb_D; assumption.
Qed.
(** A point inside an edge with triangles on both sides is an inner point. *)
Lemma nb_two p q r r' s : height p = h -> height q = h -> height r = h -> height r' = h -> D p q r * D p q r' < 0 -> 0 < s < 1 ->
  nb (line s p q) (fun y => hull [p; q; r] y \/ hull [p; q; r'] y).
Proof.
  intros Hp Hq Hr Hr' N Hs. set (x := line s p q). assert (Hx : height x = h) by (apply line_height; assumption).
  assert (N1 : D p q r <> 0) by (intros E; rewrite E in N; lra). assert (N2 : D p q r' <> 0) by (intros E; rewrite E in N; lra).
  assert (K : forall r, D p q r <> 0 -> 0 < D q r x * D p q r /\ 0 < D r p x * D p q r).
  { intros r0 Nr. unfold x. rewrite !D_line, D_cyc, D_pxp, D_px, <- (D_cyc p q r0), (D_cyc q r0 p). 
    assert (Sq : 0 < D q r0 p * D q r0 p) by (rewrite D_cyc; nra). rewrite <- (D_cyc q r0 p) in *. split; nra. }
  apply (nb_imp x (fun y => (0 < D q r y * D p q r /\ 0 < D r p y * D p q r) /\ (0 < D q r' y * D p q r' /\ 0 < D r' p y * D p q r'))).
  - intros y Hy ((A & B) & (A' & B')). destruct (Rle_dec 0 (D p q y * D p q r)) as [L|L].
    + left. apply hull3_D; try assumption. lra.
    + right. apply hull3_D; try assumption. split; [|lra]. apply Rnot_le_lt in L. nra.
  - destruct (K r N1), (K r' N2). repeat apply nb_and; apply nb_D; assumption.
Qed.

(** Which vertices a point of a triangle needs. *)
Lemma hull_drop (p : R3) ps l x : incl ps (p :: l) -> ~ In p ps -> hull ps x -> hull l x.
Proof. intros I N H. apply (hull_trans _ _ _ H). intros y Hy. apply hull_mem. destruct (I y Hy) as [<-|K]; [contradiction|exact K]. Qed.
Lemma hull2_D p q x : hull [p; q] x -> D p q x = 0.
Proof. intros H. apply hull2_line in H as (s & _ & ->). rewrite D_line, D_pxp, D_px. ring. Qed.
Lemma need p q r ps x : D q r x <> 0 -> incl ps [p; q; r] -> hull ps x -> In p ps.
Proof. intros N I H. apply NNPP. intros K. apply N, hull2_D. exact (hull_drop p ps [q; r] x I K H). Qed.
Lemma incl_rot {A} (p q r : A) ps : incl ps [p; q; r] -> incl ps [q; r; p].
Proof. intros I x Hx. specialize (I x Hx). cbn in *. tauto. Qed.
Lemma hull_same ps qs x : same_set ps qs -> hull ps x -> hull qs x.
Proof. intros S H. apply (hull_trans _ _ _ H). intros y Hy. apply hull_mem, S, Hy. Qed.
Lemma same_rot {A} (p q r : A) : same_set [p; q; r] [q; r; p]. Proof. intros x. cbn. tauto. Qed.
Lemma hull3_side p q r x : D p q r <> 0 -> hull [p; q; r] x -> D p q x = 0 -> hull [p; q] x.
Proof.
  intros N (ws & B & Pw) E. destruct (bary3 _ _ _ _ _ B) as (w0 & w1 & w2 & -> & E0).
  destruct (bary3_dets _ _ _ _ _ _ _ B) as (_ & _ & E2). change (w2 * D p q r = D p q x) in E2. rewrite E in E2.
  assert (w2 = 0) by (destruct (Rmult_integral _ _ E2); [assumption|contradiction]). subst w2.
  inversion Pw as [|? ? P0 Pw1]; subst. inversion Pw1 as [|? ? P1 _]; subst. destruct B as (_ & _ & ->).
  apply hull2_line. exists w1. split; [lra|]. unfold line. p3 p; p3 q; p3 r. cbn. unfold o3. eq3; ring.
Qed.

Section Complex.
Variable ts : list (list R3).
Definition triang (t : list R3) : Prop := exists a b c, t = [a; b; c] /\ height a = h /\ height b = h /\ height c = h /\ D a b c <> 0.
Hypothesis T : Forall triang ts.
Hypothesis E2E : edge_to_edge ts.
Definition reg (x : R3) : Prop := exists t, In t ts /\ hull t x.
(** The segment p--q is an edge of exactly one triangle. *)
Definition lone (p q : R3) : Prop :=
  exists i t, nth_error ts i = Some t /\ In p t /\ In q t /\ p <> q /\ forall j u, nth_error ts j = Some u -> In p u -> In q u -> j = i.

Lemma third t p q : In t ts -> In p t -> In q t -> p <> q -> exists r, height p = h /\ height q = h /\ height r = h /\ D p q r <> 0 /\ same_set t [p; q; r].
Proof.
  intros Ht Hp Hq N. rewrite Forall_forall in T. destruct (T t Ht) as (a & b & c & -> & Ha & Hb & Hc & ND).
  assert (C1 : D b c a <> 0) by (rewrite D_cyc; exact ND). assert (C2 : D c a b <> 0) by (rewrite D_cyc; exact C1).
  assert (S1 : D b a c <> 0) by (rewrite D_swap; lra). assert (S2 : D c b a <> 0) by (rewrite D_swap; lra). assert (S3 : D a c b <> 0) by (rewrite D_swap; lra).
  destruct Hp as [<-|[<-|[<-|[]]]], Hq as [<-|[<-|[<-|[]]]]; try congruence.
  - exists c. repeat (split; [assumption|]). intros x; cbn; tauto.
  - exists b. repeat (split; [assumption|]). intros x; cbn; tauto.
  - exists c. repeat (split; [assumption|]). intros x; cbn; tauto.
  - exists a. repeat (split; [assumption|]). intros x; cbn; tauto.
  - exists b. repeat (split; [assumption|]). intros x; cbn; tauto.
  - exists a. repeat (split; [assumption|]). intros x; cbn; tauto.
Qed.
Lemma tri_h t x : In t ts -> hull t x -> height x = h.
Proof.
  intros Ht. rewrite Forall_forall in T. destruct (T t Ht) as (a & b & c & -> & Ha & Hb & Hc & _). apply hull_h. repeat constructor; assumption.
Qed.
Lemma reg_h x : reg x -> height x = h. Proof. intros (t & Ht & Hx). exact (tri_h t x Ht Hx). Qed.
Lemma tri_vert t p : In t ts -> In p t -> height p = h.
Proof. intros Ht Hp. apply (tri_h t p Ht), hull_mem, Hp. Qed.
Lemma nb_tri_out t x : In t ts -> height x = h -> ~ hull t x -> nb x (fun y => ~ hull t y).
Proof. intros Ht. rewrite Forall_forall in T. destruct (T t Ht) as (a & b & c & -> & Ha & Hb & Hc & ND). intros Hx. apply nb_out3; assumption. Qed.
Lemma nb_reg_out x : height x = h -> ~ reg x -> nb x (fun y => ~ reg y).
Proof.
  intros Hx N. apply (nb_imp x (fun y => forall t, In t ts -> ~ hull t y)).
  - intros y _ H (t & Ht & Hy). exact (H t Ht Hy).
  - apply nb_all. intros t Ht. apply nb_tri_out; [exact Ht|exact Hx|]. intros K. apply N. exists t. auto.
Qed.

Lemma edge_point p q r s : D q r (line s p q) = (1 - s) * D p q r /\ D r p (line s p q) = s * D p q r.
Proof. unfold D, line. p3 p; p3 q; p3 r. cbn. split; ring. Qed.
Lemma edge_point_pos p q r s : D p q r <> 0 -> 0 < s < 1 -> D q r (line s p q) <> 0 /\ D r p (line s p q) <> 0.
Proof.
  intros N Hs. destruct (edge_point p q r s) as [-> ->]. split; intros K; apply Rmult_integral in K; destruct K; lra.
Qed.

(** Two triangles with a common edge lie on opposite sides of it. *)
Lemma opposite i j t u p q r r' : nth_error ts i = Some t -> nth_error ts j = Some u -> i <> j ->
  same_set t [p; q; r] -> same_set u [p; q; r'] -> height p = h -> height q = h -> height r = h -> height r' = h -> D p q r <> 0 -> D p q r' <> 0 -> D p q r * D p q r' < 0.
Proof.
  intros Ei Ej Nij St Su Hp Hq Hr Hr' N N'. apply Rnot_le_lt. intros L. assert (L' : 0 < D p q r * D p q r') by (destruct L as [L|L]; [exact L|]; exfalso; symmetry in L; apply Rmult_integral in L; tauto).
  destruct (E2E i j t u Ei Ej Nij) as (NS & Meet).
  set (x := line (1/2) p q). assert (Hx : height x = h) by (apply line_height; assumption).
  assert (K : forall r0, D p q r0 <> 0 -> 0 < D q r0 x * D p q r0 /\ 0 < D r0 p x * D p q r0).
  { intros r0 N0. unfold x. destruct (edge_point p q r0 (1 / 2)) as [-> ->].
    assert (0 < D p q r0 * D p q r0) by nra. split; nra. }
  assert (Nb : nb x (fun y => (0 < D q r y * D p q r /\ 0 < D r p y * D p q r) /\ (0 < D q r' y * D p q r' /\ 0 < D r' p y * D p q r'))).
  { destruct (K r N), (K r' N'). repeat apply nb_and; apply nb_D; assumption. }
  destruct (nb_step x r _ Hx Hr Nb) as (d & Pd & Hd). assert (Pd2 : 0 < Rmin d 1) by (apply Rmin_glb_lt; lra). pose proof (Rmin_l d 1). 
  set (e := Rmin d 1 / 2). assert (He : 0 < e < d) by (unfold e; lra). specialize (Hd e ltac:(rewrite Rabs_right by lra; lra)). destruct Hd as ((A & B) & (A' & B')).
  set (y := line e x r) in *. assert (Hy : height y = h) by (apply line_height; assumption).
  assert (Dy : D p q y = e * D p q r) by (unfold y, x; rewrite !D_line, D_pxp, D_px; ring).
  assert (Sq : 0 < D p q r * D p q r) by nra.
  assert (It : hull t y). { apply (hull_same [p; q; r]); [intros z; symmetry; apply St|]. apply hull3_D; try assumption. rewrite Dy. repeat split; nra. }
  assert (Iu : hull u y). { apply (hull_same [p; q; r']); [intros z; symmetry; apply Su|]. apply hull3_D; try assumption. rewrite Dy. repeat split; nra. }
  destruct (Meet y It Iu) as (ps & I1 & I2 & Hps).
  assert (I1' : incl ps [p; q; r]) by (intros z Hz; apply St, I1, Hz).
  assert (Ir : In r ps). { apply (need r p q ps y); [rewrite Dy; nra|apply incl_rot, incl_rot, I1'|exact Hps]. }
  assert (Ir' : In r [p; q; r']) by (apply Su, I2, Ir).
  assert (Er : r' = r). { destruct Ir' as [K0|[K0|[K0|[]]]]; [exfalso; apply N; rewrite <- K0; apply D_pxp|exfalso; apply N; rewrite <- K0; apply D_px|exact K0]. }
  apply NS. intros z. rewrite (St z), (Su z), Er. tauto.
Qed.

(** A point inside an edge that is not alone is an inner point. *)
Lemma shared_inner t p q s : In t ts -> In p t -> In q t -> p <> q -> 0 < s < 1 -> ~ lone p q -> nb (line s p q) reg.
Proof.
  intros Ht Hp Hq N Hs NL. destruct (In_nth_error _ _ Ht) as (i & Ei).
  assert (O : exists j u, nth_error ts j = Some u /\ In p u /\ In q u /\ i <> j).
  { apply NNPP. intros K. apply NL. exists i, t. repeat (split; [assumption|]). intros j u Ej Hpu Hqu. apply NNPP. intros Nj. apply K. exists j, u. repeat (split; [assumption|]). congruence. }
  destruct O as (j & u & Ej & Hpu & Hqu & Nij). pose proof (nth_error_In _ _ Ej) as Hu.
  destruct (third t p q Ht Hp Hq N) as (r & Ph & Qh & Rh & ND & St). destruct (third u p q Hu Hpu Hqu N) as (r' & _ & _ & Rh' & ND' & Su).
  pose proof (opposite i j t u p q r r' Ei Ej Nij St Su Ph Qh Rh Rh' ND ND') as Op.
  apply (nb_imp _ (fun y => hull [p; q; r] y \/ hull [p; q; r'] y)); [|apply nb_two; assumption].
  intros y _ [Hy|Hy]; [exists t|exists u]; (split; [assumption|]); revert Hy; apply hull_same; intros z; symmetry; [apply St|apply Su].
Qed.

(** Where a point of a triangle can lie. *)
Lemma where_in t x : In t ts -> hull t x -> nb x reg \/ In x t \/ exists p q s, In p t /\ In q t /\ p <> q /\ 0 < s < 1 /\ x = line s p q.
Proof.
  intros Ht Hx. pose proof (tri_h t x Ht Hx) as Xh. pose proof T as T'. rewrite Forall_forall in T'. destruct (T' t Ht) as (a & b & c & -> & Ha & Hb & Hc & ND). clear T'.
  assert (Side : forall p q r, D p q r <> 0 -> same_set [a; b; c] [p; q; r] -> D p q x = 0 -> In x [a; b; c] \/ exists p q s, In p [a; b; c] /\ In q [a; b; c] /\ p <> q /\ 0 < s < 1 /\ x = line s p q).
  { intros p q r N S E. pose proof (hull3_side p q r x N (hull_same _ _ _ S Hx) E) as Hs. apply hull2_line in Hs as (s & Hs & ->).
    assert (Ip : In p [a; b; c]) by (apply S; cbn; tauto). assert (Iq : In q [a; b; c]) by (apply S; cbn; tauto).
    destruct (Req_dec s 0) as [->|N0]; [left; rewrite line_0; exact Ip|]. destruct (Req_dec s 1) as [->|N1]; [left; rewrite line_1; exact Iq|].
    right. exists p, q, s. repeat (split; [assumption|]). split; [intros ->; apply N, D_pp|]. split; [lra|reflexivity]. }
  assert (C1 : D b c a <> 0) by (rewrite D_cyc; exact ND). assert (C2 : D c a b <> 0) by (rewrite D_cyc; exact C1).
  destruct (Req_dec (D a b x) 0) as [E|N1]; [right; apply (Side a b c ND); [intros z; tauto|exact E]|].
  destruct (Req_dec (D b c x) 0) as [E|N2]; [right; apply (Side b c a C1); [apply same_rot|exact E]|].
  destruct (Req_dec (D c a x) 0) as [E|N3]; [right; apply (Side c a b C2); [intros z; cbn; tauto|exact E]|].
  left. apply (nb_imp x (hull [a; b; c])); [intros y _ Hy; exists [a; b; c]; auto|].
  apply hull3_D in Hx; try assumption. destruct Hx as (A & B & C).
  assert (K : forall d, d <> 0 -> 0 <= d * D a b c -> 0 < d * D a b c) by (intros d Nd [L|L]; [exact L|]; exfalso; symmetry in L; apply Rmult_integral in L; tauto).
  apply nb_in3; auto.
Qed.

(** Walking from a point of the region to one outside, the last point of the region is not
    an inner point. *)
Lemma walk y z : height y = h -> height z = h -> reg y -> ~ reg z -> exists s, 0 <= s <= 1 /\ reg (line s y z) /\ ~ nb (line s y z) reg.
Proof.
  intros Hy Hz Ry Nz. set (E := fun s => 0 <= s <= 1 /\ reg (line s y z)).
  destruct (completeness E) as (m & Ub & Lub).
  - exists 1. intros s [Hs _]. lra.
  - exists 0. split; [lra|]. rewrite line_0. exact Ry.
  - assert (M0 : 0 <= m) by (apply Ub; split; [lra|rewrite line_0; exact Ry]). assert (M1 : m <= 1) by (apply Lub; intros s [Hs _]; lra).
    assert (Hm : height (line m y z) = h) by (apply line_height; assumption).
    assert (Near : forall s, line (m + s) y z = line s (line m y z) (add3 (line m y z) (sub3 z y))).
    { intros s. unfold line. p3 y; p3 z. cbn. eq3; ring. }
    assert (Hw : height (add3 (line m y z) (sub3 z y)) = h).
    { revert Hm Hy Hz. unfold line, height. p3 y; p3 z. cbn. intros. lra. }
    assert (Rm : reg (line m y z)).
    { apply NNPP. intros Nm. destruct (nb_step _ _ _ Hm Hw (nb_reg_out _ Hm Nm)) as (d & Pd & Hd).
      assert (K : is_upper_bound E (m - d / 2)); [|specialize (Lub _ K); lra].
      intros s [Hs Rs]. apply Rnot_lt_le. intros L. pose proof (Ub s (conj Hs Rs)) as U. apply (Hd (s - m)); [rewrite Rabs_left1 by lra; lra|].
      rewrite <- Near. replace (m + (s - m)) with s by ring. exact Rs. }
    exists m. split; [lra|]. split; [exact Rm|]. intros Nb.
    destruct (nb_step _ _ _ Hm Hw Nb) as (d & Pd & Hd).
    assert (Lm : m < 1). { destruct M1 as [L | ->]; [exact L|]. exfalso. rewrite line_1 in Rm. contradiction. }
    pose proof (Rmin_l (d / 2) (1 - m)). pose proof (Rmin_r (d / 2) (1 - m)). assert (Pe : 0 < Rmin (d / 2) (1 - m)) by (apply Rmin_glb_lt; lra). set (e := Rmin (d / 2) (1 - m)) in *.
    assert (K : E (m + e)). { split; [lra|]. rewrite Near. apply Hd. rewrite Rabs_right by lra. lra. }
    specialize (Ub _ K). lra.
Qed.

Lemma nb_other_vertices x : nb x (fun y => forall t v, In t ts -> In v t -> v <> x -> height x = h -> y <> v).
Proof.
  apply (nb_imp x (fun y => forall v, In v (concat ts) -> v <> x -> height v = h -> height x = h -> y <> v)).
  - intros y _ H t v Ht Hv N Hx. apply H; try assumption; [apply in_concat; eauto|exact (tri_vert t v Ht Hv)].
  - apply (nb_all (concat ts) x (fun v y => v <> x -> height v = h -> height x = h -> y <> v)). intros v _.
    destruct (classic (v <> x /\ height v = h /\ height x = h)) as [(N & Hv & Hx)|K]; [|exists 1; split; [lra|]; intros; tauto].
    assert (C : fst (fst v) <> fst (fst x) \/ snd (fst v) <> snd (fst x)).
    { apply NNPP. intros C. apply N. rewrite (P_of v Hv), (P_of x Hx). f_equal; apply NNPP; tauto. }
    destruct C as [C|C].
    + exists (Rabs (fst (fst v) - fst (fst x))). split; [apply Rabs_pos_lt; lra|]. intros a b La _ _ _ _ Eq. rewrite <- Eq in La. cbn in La. lra.
    + exists (Rabs (snd (fst v) - snd (fst x))). split; [apply Rabs_pos_lt; lra|]. intros a b _ Lb _ _ _ Eq. rewrite <- Eq in Lb. cbn in Lb. lra.
Qed.

(** Squares. *)
Lemma between e u v s : 0 <= s <= 1 -> u < e -> v < e -> u + s * (v - u) < e.
Proof. intros Hs Hu Hv. destruct (Req_dec s 0) as [->|N]; [lra|]. assert (0 < s * (e - v)) by (apply Rmult_lt_0_compat; lra). assert (0 <= (1 - s) * (e - u)) by (apply Rmult_le_pos; lra). lra. Qed.
Lemma flat_pair u0 u1 b0 b1 c0 c1 : u0 <> 0 \/ u1 <> 0 -> u0 * b1 - u1 * b0 = 0 -> u0 * c1 - u1 * c0 = 0 -> b0 * c1 - b1 * c0 = 0.
Proof.
  intros [N|N] B C.
  - apply (Rmult_eq_reg_l u0); [|exact N]. replace (u0 * (b0 * c1 - b1 * c0)) with (b0 * (u0 * c1 - u1 * c0) - c0 * (u0 * b1 - u1 * b0)) by ring. rewrite B, C. ring.
  - apply (Rmult_eq_reg_l u1); [|exact N]. replace (u1 * (b0 * c1 - b1 * c0)) with (b1 * (u0 * c1 - u1 * c0) - c1 * (u0 * b1 - u1 * b0)) by ring. rewrite B, C. ring.
Qed.
Definition sq (e : R) (x y : R3) : Prop := Rabs (fst (fst y) - fst (fst x)) < e /\ Rabs (snd (fst y) - snd (fst x)) < e.
Lemma nb_sq x Q : nb x Q <-> exists e, 0 < e /\ forall y, height y = h -> sq e x y -> Q y.
Proof.
  split; intros (e & Pe & H); exists e; (split; [exact Pe|]).
  - intros y Hy [A B]. rewrite (P_of y Hy). apply H; assumption.
  - intros a b A B. apply H; [reflexivity|split; assumption].
Qed.
Lemma nb_self e x : 0 < e -> nb x (sq e x).
Proof. intros Pe. exists e. split; [exact Pe|]. intros a b A B. split; assumption. Qed.
Lemma sq_line e x y z s : 0 <= s <= 1 -> sq e x y -> sq e x z -> sq e x (line s y z).
Proof.
  intros Hs [A B] [A' B']. unfold sq, line. p3 x; p3 y; p3 z. cbn in *. 
  split; match goal with |- Rabs (?y + ?t * (?z - ?y) - ?x) < e => replace (y + t * (z - y) - x) with ((y - x) + t * ((z - x) - (y - x))) by ring end.
  - apply Rabs_def2 in A, A'. apply Rabs_def1; [apply between; lra|]. match goal with |- - e < ?u + ?t * (?v - ?u) => pose proof (between e (- u) (- v) t Hs ltac:(lra) ltac:(lra)); lra end.
  - apply Rabs_def2 in B, B'. apply Rabs_def1; [apply between; lra|]. match goal with |- - e < ?u + ?t * (?v - ?u) => pose proof (between e (- u) (- v) t Hs ltac:(lra) ltac:(lra)); lra end.
Qed.
Lemma nb_open x Q : nb x Q -> nb x (fun y => nb y Q).
Proof.
  intros (e & Pe & H). exists (e / 2). split; [lra|]. intros a b A B. exists (e / 2). split; [lra|]. cbn. intros a' b' A' B'.
  apply Rabs_def2 in A, B, A', B'. apply H; apply Rabs_def1; lra.
Qed.
Lemma sq_dist e x y : height x = h -> height y = h -> sq (e / 2) x y -> dist3 y x < e.
Proof.
  intros Hx Hy [A B]. rewrite (P_of x Hx), (P_of y Hy). unfold dist3, norm3, P. cbn. revert A B. generalize (fst (fst x)) (snd (fst x)) (fst (fst y)) (snd (fst y)). intros x0 x1 y0 y1 A B.
  assert (0 < e) by (pose proof (Rabs_pos (y0 - x0)); lra). apply Rabs_def2 in A, B.
  rewrite <- (sqrt_square e) by lra. apply sqrt_lt_1_alt.
  assert (A1 : 0 < (e / 2 - (y0 - x0)) * (e / 2 + (y0 - x0))) by (apply Rmult_lt_0_compat; lra). assert (B1 : 0 < (e / 2 - (y1 - x1)) * (e / 2 + (y1 - x1))) by (apply Rmult_lt_0_compat; lra).
  pose proof (Rle_0_sqr (y0 - x0)). pose proof (Rle_0_sqr (y1 - x1)). assert (0 < e * e) by (apply Rmult_lt_0_compat; assumption). unfold Rsqr in *. split; lra.
Qed.
Lemma dist_sq e x y : height x = h -> height y = h -> dist3 y x < e -> sq e x y.
Proof.
  intros Hx Hy. rewrite (P_of x Hx), (P_of y Hy). unfold dist3, norm3, P, sq. cbn. generalize (fst (fst x)) (snd (fst x)) (fst (fst y)) (snd (fst y)). intros x0 x1 y0 y1 A.
  pose proof (Rle_0_sqr (y0 - x0)) as Q0. pose proof (Rle_0_sqr (y1 - x1)) as Q1. unfold Rsqr in *.
  split; eapply Rle_lt_trans; try exact A; rewrite <- sqrt_Rsqr_abs; apply sqrt_le_1_alt; unfold Rsqr; nra.
Qed.

Lemma not_nb x : ~ nb x reg -> forall e, 0 < e -> exists z, height z = h /\ sq e x z /\ ~ reg z.
Proof.
  intros N e Pe. apply NNPP. intros K. apply N. apply nb_sq. exists e. split; [exact Pe|]. intros y Hy Sy. apply NNPP. intros Ny. apply K. exists y. auto.
Qed.
Lemma lone_facts p q : lone p q -> exists t, In t ts /\ In p t /\ In q t /\ p <> q.
Proof. intros (i & t & Ei & Hp & Hq & N & _). exists t. split; [exact (nth_error_In _ _ Ei)|auto]. Qed.

(** A vertex on no lone segment is an inner point. *)
Lemma inner_vertex t x : In t ts -> In x t -> (forall p q, lone p q -> ~ hull [p; q] x) -> nb x reg.
Proof.
  intros Ht Hxt NL. pose proof (tri_vert t x Ht Hxt) as Hx.
  assert (N1 : nb x (fun y => forall pq, In pq (list_prod (concat ts) (concat ts)) -> lone (fst pq) (snd pq) -> ~ hull [fst pq; snd pq] y)).
  { apply nb_all. intros [p q] _. cbn. destruct (classic (lone p q)) as [L|K]; [|exists 1; split; [lra|]; tauto].
    destruct (lone_facts p q L) as (u & Hu & Hp & Hq & N).
    apply (nb_imp x (fun y => ~ hull [p; q] y)); [tauto|]. apply nb_out2; [exact (tri_vert u p Hu Hp)|exact (tri_vert u q Hu Hq)|exact Hx|exact N|apply NL; exact L]. }
  pose proof (nb_and _ _ _ N1 (nb_other_vertices x)) as N2. apply nb_sq in N2 as (e & Pe & U).
  apply NNPP. intros Nx. destruct (not_nb x Nx e Pe) as (z & Hz & Sz & Nz).
  assert (Rx : reg x) by (exists t; split; [exact Ht|apply hull_mem; exact Hxt]).
  assert (Nxz : x <> z) by (intros ->; contradiction).
  assert (Ob : exists b c, height b = h /\ height c = h /\ In b t /\ In c t /\ D x b c <> 0).
  { pose proof T as T'. rewrite Forall_forall in T'. destruct (T' t Ht) as (a & b & c & -> & Ha & Hb & Hc & ND).
    destruct Hxt as [<-|[<-|[<-|[]]]]; [exists b, c|exists c, a|exists a, b]; cbn; repeat (split; [tauto|]); [exact ND|rewrite D_cyc; exact ND|rewrite <- D_cyc; exact ND]. }
  destruct Ob as (b & c & Hb & Hc & Ib & Ic & ND).
  assert (Og : exists g, In g t /\ height g = h /\ D x z g <> 0).
  { apply NNPP. intros K. assert (K1 : D x z b = 0) by (apply NNPP; intros K1; apply K; exists b; auto). assert (K2 : D x z c = 0) by (apply NNPP; intros K2; apply K; exists c; auto).
    assert (C : fst (fst z) <> fst (fst x) \/ snd (fst z) <> snd (fst x)).
    { apply NNPP. intros C. apply Nxz. rewrite (P_of z Hz), (P_of x Hx). f_equal; symmetry; apply NNPP; tauto. }
    apply ND. transitivity ((fst (fst b) - fst (fst x)) * (snd (fst c) - snd (fst x)) - (snd (fst b) - snd (fst x)) * (fst (fst c) - fst (fst x))); [unfold D; p3 x; p3 b; p3 c; cbn; ring|].
    apply (flat_pair (fst (fst z) - fst (fst x)) (snd (fst z) - snd (fst x))); [destruct C; [left|right]; lra| |].
    - revert K1. unfold D. p3 x; p3 z; p3 b. cbn. lra.
    - revert K2. unfold D. p3 x; p3 z; p3 c. cbn. lra. }
  destruct Og as (g & Ig & Hg & NDg).
  destruct (nb_step x g _ Hx Hg (nb_self e x Pe)) as (d & Pd & Hd).
  pose proof (Rmin_l (d / 2) 1) as M1. pose proof (Rmin_r (d / 2) 1) as M2. assert (M0 : 0 < Rmin (d / 2) 1) by (apply Rmin_glb_lt; lra). set (k := Rmin (d / 2) 1) in *.
  set (y := line k x g). assert (Sy : sq e x y) by (apply Hd; rewrite Rabs_right by lra; lra).
  assert (Hy : height y = h) by (apply line_height; assumption).
  assert (Ry : reg y). { exists t. split; [exact Ht|]. apply (hull_trans [x; g]); [apply hull2_line; exists k; split; [lra|reflexivity]|]. intros v [<-|[<-|[]]]; apply hull_mem; assumption. }
  destruct (walk y z Hy Hz Ry Nz) as (s & Hs & Rw & Nw). set (w := line s y z) in *.
  assert (Hw : height w = h) by (apply line_height; assumption).
  assert (Nwx : w <> x).
  { intros Ew. assert (K : D x z w = 0) by (rewrite Ew; apply D_pxp). unfold w, y in K. rewrite !D_line, D_pxp, D_px in K.
    assert (K' : (1 - s) * (k * D x z g) = 0) by lra. apply Rmult_integral in K' as [K'|K'].
    - apply Nz. replace z with w; [exact Rw|]. unfold w. replace s with 1 by lra. apply line_1.
    - apply Rmult_integral in K' as [K'|K']; [lra|contradiction]. }
  destruct (U w Hw (sq_line e x y z s Hs Sy Sz)) as (UL & UV).
  destruct Rw as (u & Hu & Hwu). destruct (where_in u w Hu Hwu) as [K|[K|(p & q & s' & Ip & Iq & Npq & Hs' & Ew)]].
  - contradiction.
  - exact (UV u w Hu K Nwx Hx eq_refl).
  - destruct (classic (lone p q)) as [L|L].
    + apply (UL (p, q)); [apply in_prod; apply in_concat; eauto|exact L|]. cbn. apply hull2_line. exists s'. split; [lra|exact Ew].
    + apply Nw. rewrite Ew. exact (shared_inner u p q s' Hu Ip Iq Npq Hs' L).
Qed.

(** A point of the region on no lone segment is an inner point. *)
Lemma inner_point x : reg x -> (forall p q, lone p q -> ~ hull [p; q] x) -> nb x reg.
Proof.
  intros (t & Ht & Hx) NL. destruct (where_in t x Ht Hx) as [K|[K|(p & q & s & Ip & Iq & Npq & Hs & Ex)]].
  - exact K.
  - exact (inner_vertex t x Ht K NL).
  - rewrite Ex. apply (shared_inner t); try assumption. intros L. apply (NL p q L). apply hull2_line. exists s. split; [lra|exact Ex].
Qed.

(** A point of a lone segment is not. *)
Lemma lone_outer p q x : lone p q -> hull [p; q] x -> ~ nb x reg.
Proof.
  intros L Hx Nb. pose proof L as (i & t & Ei & Ip & Iq & Npq & Only). pose proof (nth_error_In _ _ Ei) as Ht.
  destruct (third t p q Ht Ip Iq Npq) as (r & Hp & Hq & Hr & ND & St).
  apply hull2_line in Hx as (s & Hs & ->).
  assert (Hx : height (line s p q) = h) by (apply line_height; assumption).
  assert (Hm : height (line (1/2) p q) = h) by (apply line_height; assumption).
  destruct (nb_step _ _ _ Hx Hm (nb_open _ _ Nb)) as (d & Pd & Hd).
  pose proof (Rmin_l (d / 2) 1) as M1. pose proof (Rmin_r (d / 2) 1) as M2. assert (M0 : 0 < Rmin (d / 2) 1) by (apply Rmin_glb_lt; lra). set (k := Rmin (d / 2) 1) in *.
  specialize (Hd k ltac:(rewrite Rabs_right by lra; lra)).
  set (s' := s + k * (1/2 - s)) in *.
  assert (Hs' : 0 < s' < 1) by (unfold s'; nra).
  replace (line k (line s p q) (line (1 / 2) p q)) with (line s' p q) in Hd by (unfold s', line; p3 p; p3 q; cbn; eq3; ring).
  set (x := line s' p q) in *. assert (Hxh : height x = h) by (apply line_height; assumption).
  assert (Itx : hull t x). { apply (hull_trans [p; q]); [apply hull2_line; exists s'; split; [lra|reflexivity]|]. intros v [<-|[<-|[]]]; apply hull_mem; assumption. }
  assert (Away : nb x (fun y => forall j, In j (seq 0 (length ts)) -> forall u, nth_error ts j = Some u -> j <> i -> ~ hull u y)).
  { apply nb_all. intros j _. destruct (nth_error ts j) as [u|] eqn:Ej; [|exists 1; split; [lra|]; intros; discriminate].
    destruct (Nat.eq_dec j i) as [->|Nj]; [exists 1; split; [lra|]; intros a b _ _ u' _ K; congruence|].
    pose proof (nth_error_In _ _ Ej) as Hu.
    apply (nb_imp x (fun y => ~ hull u y)); [intros y _ K u' [= <-] _; exact K|]. apply nb_tri_out; [exact Hu|exact Hxh|].
    intros Iu. destruct (E2E i j t u Ei Ej ltac:(congruence)) as (_ & Meet). destruct (Meet x Itx Iu) as (ps & I1 & I2 & Hps).
    assert (I1' : incl ps [p; q; r]) by (intros z Hz; apply St, I1, Hz). destruct (edge_point_pos p q r s' ND Hs') as (Q1 & Q2). fold x in Q1, Q2.
    apply Nj. apply (Only j u Ej); apply I2; [exact (need p q r ps x Q1 I1' Hps)|exact (need q r p ps x Q2 (incl_rot _ _ _ _ I1') Hps)]. }
  destruct (nb_step x r _ Hxh Hr (nb_and _ _ _ Hd Away)) as (e & Pe & He). destruct (He (- (e / 2)) ltac:(rewrite Rabs_left by lra; lra)) as ((u & Hu & Iu) & Aw).
  destruct (In_nth_error _ _ Hu) as (j & Ej). destruct (Nat.eq_dec j i) as [->|Nj].
  - rewrite Ei in Ej. injection Ej as <-. apply (hull_same _ [p; q; r] _ St) in Iu. apply hull3_D in Iu; try assumption; [|apply line_height; assumption].
    destruct Iu as (K & _). unfold x in K. rewrite !D_line, D_pxp, D_px in K. assert (0 < D p q r * D p q r) by nra. nra.
  - refine (Aw j _ u Ej Nj Iu). apply in_seq. split; [lia|]. apply nth_error_Some. congruence.
Qed.

(** The boundary of the region is the union of the lone segments. *)
Lemma frontier x : boundary h reg x <-> exists p q, lone p q /\ hull [p; q] x.
Proof.
  split.
  - intros (Hx & B). apply NNPP. intros K.
    assert (NL : forall p q, lone p q -> ~ hull [p; q] x) by (intros p q L Hh; apply K; eauto).
    destruct (classic (reg x)) as [Rx|Rx].
    + apply inner_point in Rx; [|exact NL]. apply nb_sq in Rx as (e & Pe & H). destruct (B e Pe) as (_ & y & Hy & Ny & Dy). apply Ny, H; [exact Hy|apply dist_sq; assumption].
    + apply nb_reg_out in Rx; [|exact Hx]. apply nb_sq in Rx as (e & Pe & H). destruct (B e Pe) as ((y & Hy & Ny & Dy) & _). apply (H y); [exact Hy|apply dist_sq; assumption|exact Ny].
  - intros (p & q & L & Hx). pose proof L as (i & t & Ei & Ip & Iq & _). pose proof (nth_error_In _ _ Ei) as Ht.
    assert (Rx : reg x). { exists t. split; [exact Ht|]. apply (hull_trans _ _ _ Hx). intros v [<-|[<-|[]]]; apply hull_mem; assumption. }
    pose proof (reg_h x Rx) as Hh. split; [exact Hh|]. intros e Pe. split.
    + exists x. split; [exact Hh|]. split; [exact Rx|]. apply sq_dist; [exact Hh|exact Hh|]. split; rewrite Rminus_diag_eq, Rabs_R0 by reflexivity; lra.
    + destruct (not_nb x (lone_outer p q x L Hx) (e / 2) ltac:(lra)) as (z & Hz & Sz & Nz). exists z. split; [exact Hz|]. split; [exact Nz|]. apply sq_dist; assumption.
Qed.

(** There are lone segments. *)
Lemma far (l : list R3) : exists M, forall v, In v l -> fst (fst v) < M.
Proof.
  induction l as [|p l (M & H)]; [exists 0; intros v []|]. exists (Rmax M (fst (fst p) + 1)). pose proof (Rmax_l M (fst (fst p) + 1)). pose proof (Rmax_r M (fst (fst p) + 1)).
  intros v [<-|Hv]; [lra|]. specialize (H v Hv). lra.
Qed.
Lemma far' (l : list R3) : exists M, forall v, In v l -> M < fst (fst v).
Proof.
  induction l as [|p l (M & H)]; [exists 0; intros v []|]. exists (Rmin M (fst (fst p) - 1)). pose proof (Rmin_l M (fst (fst p) - 1)). pose proof (Rmin_r M (fst (fst p) - 1)).
  intros v [<-|Hv]; [lra|]. specialize (H v Hv). lra.
Qed.
(** No point of the region is to the right, or to the left, of all vertices. *)
Lemma far_out k M y : k <> 0 -> (forall v, In v (concat ts) -> k * fst (fst v) < k * M) -> ~ reg (P M y).
Proof.
  intros Nk HM (u & Hu & Iu). pose proof T as T'. rewrite Forall_forall in T'. destruct (T' u Hu) as (a & b & c & -> & _). destruct Iu as (ws & B & Pw). destruct (bary3 _ _ _ _ _ B) as (w0 & w1 & w2 & -> & W). assert (W' : w0 + w1 + w2 = 1) by lra. clear W.
  inversion Pw as [|? ? P0 Pw1]; subst. inversion Pw1 as [|? ? P1 Pw2]; subst. inversion Pw2 as [|? ? P2 _]; subst. destruct B as (_ & _ & E).
  assert (Ea : k * fst (fst a) < k * M) by (apply HM, in_concat; exists [a; b; c]; cbn; auto). assert (Eb : k * fst (fst b) < k * M) by (apply HM, in_concat; exists [a; b; c]; cbn; auto). assert (Ec : k * fst (fst c) < k * M) by (apply HM, in_concat; exists [a; b; c]; cbn; auto).
  revert Ea Eb Ec E. p3 a; p3 b; p3 c. unfold P. cbn. unfold o3. intros Ea Eb Ec E. injection E as E _ _.
  match type of Ea with ?a0 < _ => match type of Eb with ?b0 < _ => match type of Ec with ?c0 < _ =>
    assert (0 <= w0 * (k * M - a0)) by (apply Rmult_le_pos; lra); assert (0 <= w1 * (k * M - b0)) by (apply Rmult_le_pos; lra); assert (0 <= w2 * (k * M - c0)) by (apply Rmult_le_pos; lra);
    assert (Z : w0 * (k * M - a0) + w1 * (k * M - b0) + w2 * (k * M - c0) = 0)
      by (assert (EM : k * M = w0 * a0 + w1 * b0 + w2 * c0) by (rewrite E; ring);
          transitivity ((w0 + w1 + w2) * (k * M) - (w0 * a0 + w1 * b0 + w2 * c0)); [ring|rewrite <- EM, W'; ring]);
    assert (w0 = 0) by (destruct (Rmult_integral w0 (k * M - a0) ltac:(lra)); lra); assert (w1 = 0) by (destruct (Rmult_integral w1 (k * M - b0) ltac:(lra)); lra); assert (w2 = 0) by (destruct (Rmult_integral w2 (k * M - c0) ltac:(lra)); lra) end end end. lra.
Qed.
Lemma lone_exists : ts <> [] -> exists p q, lone p q.
Proof.
  intros N. destruct ts as [|t0 l] eqn:Ets; [contradiction|]. rewrite <- Ets in *. assert (Ht : In t0 ts) by (rewrite Ets; left; reflexivity). 
  pose proof T as T'. rewrite Forall_forall in T'. destruct (far (concat ts)) as (M & HM).
  assert (Nz : ~ reg (P M 0)) by (apply (far_out 1); [lra|]; intros v Hv; specialize (HM v Hv); lra).
  destruct (T' t0 Ht) as (a & b & c & Et & Ha & _).
  assert (Ra : reg a) by (exists t0; split; [exact Ht|apply hull_mem; rewrite Et; left; reflexivity]).
  destruct (walk a (P M 0) Ha (P_height _ _) Ra Nz) as (s & _ & Rw & Nw). apply NNPP. intros K. apply Nw, inner_point; [exact Rw|]. intros p q L _. apply K. eauto.
Qed.
(** Every point of the region lies between two points of lone segments. *)
Lemma between_x x x1 x2 b : x1 <= x <= x2 -> hull [P x1 b; P x2 b] (P x b).
Proof.
  intros Hx. apply hull2_line. destruct (Req_dec x1 x2) as [->|N]; [exists 0; split; [lra|]; rewrite line_0; replace x with x2 by lra; reflexivity|].
  exists ((x - x1) / (x2 - x1)). split.
  - split; [apply Rmult_le_pos; [lra|left; apply Rinv_0_lt_compat; lra]|]. apply (Rmult_le_reg_r (x2 - x1)); [lra|]. unfold Rdiv. rewrite Rmult_assoc, Rinv_l by lra. lra.
  - unfold line, P. cbn. eq3; field; lra.
Qed.
Lemma reg_between x : reg x -> exists b1 b2, (exists p q, lone p q /\ hull [p; q] b1) /\ (exists p q, lone p q /\ hull [p; q] b2) /\ hull [b1; b2] x.
Proof.
  intros Rx. pose proof (reg_h x Rx) as Hx. rewrite (P_of x Hx) in *. set (a := fst (fst x)) in *. set (b := snd (fst x)) in *.
  assert (Go : forall k M, k <> 0 -> (forall v, In v (concat ts) -> k * fst (fst v) < k * M) -> k * a < k * M ->
    exists a1, k * a <= k * a1 /\ exists p q, lone p q /\ hull [p; q] (P a1 b)).
  { intros k M Nk HM La. pose proof (far_out k M b Nk HM) as Nz. destruct (walk (P a b) (P M b) (P_height _ _) (P_height _ _) Rx Nz) as (s & Hs & Rw & Nw).
    assert (El : line s (P a b) (P M b) = P (a + s * (M - a)) b) by (unfold line, P; cbn; eq3; ring). rewrite El in *.
    exists (a + s * (M - a)). split; [|apply NNPP; intros K; apply Nw, inner_point; [exact Rw|]; intros p q L Hh; apply K; eauto].
    assert (0 <= s * (k * M - k * a)) by (apply Rmult_le_pos; lra). lra. }
  destruct (far (concat ts)) as (M & HM). destruct (far' (concat ts)) as (M' & HM').
  destruct (Go 1 (Rmax M (a + 1))) as (a1 & L1 & B1); [lra|intros v Hv; specialize (HM v Hv); pose proof (Rmax_l M (a + 1)); lra|pose proof (Rmax_r M (a + 1)); lra|].
  destruct (Go (-1) (Rmin M' (a - 1))) as (a2 & L2 & B2); [lra|intros v Hv; specialize (HM' v Hv); pose proof (Rmin_l M' (a - 1)); lra|pose proof (Rmin_r M' (a - 1)); lra|].
  exists (P a2 b), (P a1 b). split; [exact B2|]. split; [exact B1|]. apply between_x. lra.
Qed.
End Complex.
End Plane.
