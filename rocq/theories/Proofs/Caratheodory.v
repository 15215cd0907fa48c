(** Points in the hull of finitely many points of the plane lie in a triangle with
    vertices among them; a triangulation routine as assumed in C74 therefore exists. *)
From Coq Require Import Reals List ZArith Lia Lra Psatz Bool Classical.
From Verif Require Import Spec.RVec Spec.Sets Spec.Space Spec.Overlap Spec.Plane Proofs.NumLemmas Proofs.IntersectLemmas Proofs.PlaneLemmas Proofs.Polytope Proofs.Polygon Proofs.OverlapLemmas.
Import ListNotations.
Local Open Scope R_scope.

Definition ground (p : R3) : Prop := height p = 0.

(** The least ratio. *)
Lemma ratio3 t u1 u2 u3 a b c : 0 <= t -> 0 <= u1 -> 0 <= u2 -> 0 <= u3 ->
  exists s, 0 <= s <= t /\ 0 <= u1 + s * a /\ 0 <= u2 + s * b /\ 0 <= u3 + s * c /\
    (s = t \/ (u1 + s * a = 0 /\ a <> 0) \/ (u2 + s * b = 0 /\ b <> 0) \/ (u3 + s * c = 0 /\ c <> 0)).
Proof.
  intros Ht H1 H2 H3.
  assert (K : forall u a s0, 0 <= u -> 0 <= s0 -> exists s, 0 <= s <= s0 /\ 0 <= u + s * a /\ (s = s0 \/ (u + s * a = 0 /\ a <> 0))).
  { clear. intros u a s0 Hu Hs. destruct (Rle_dec 0 (u + s0 * a)) as [P|P]; [exists s0; repeat split; auto; lra|].
    assert (Na : a < 0) by (apply Rnot_le_lt; intros X; apply P; pose proof (Rmult_le_pos s0 a Hs X); lra).
    exists (u / - a). assert (E : u + u / - a * a = 0) by (field; lra). split; [split|].
    - apply Rmult_le_pos; [exact Hu|]. left. apply Rinv_0_lt_compat. lra.
    - apply Rnot_lt_le. intros X. apply P. assert (u / - a * - a = u) by (field; lra). assert (s0 * - a <= u / - a * - a) by (apply Rmult_le_compat_r; lra). lra.
    - split; [lra|]. right. split; [exact E|lra]. }
  assert (Mono : forall u a s s', 0 <= u -> 0 <= s -> s <= s' -> 0 <= u + s' * a -> 0 <= u + s * a).
  { clear. intros u a s s' Hu Hs L H. destruct (Rle_dec 0 a) as [P|P]; [pose proof (Rmult_le_pos s a Hs P); lra|].
    assert (s' * - a >= s * - a) by (apply Rle_ge, Rmult_le_compat_r; lra). lra. }
  destruct (K u1 a t H1 Ht) as (s1 & [B1 B1'] & P1 & D1).
  destruct (K u2 b s1 H2 B1) as (s2 & [B2 B2'] & P2 & D2).
  destruct (K u3 c s2 H3 B2) as (s3 & [B3 B3'] & P3 & D3).
  exists s3. split; [lra|]. split; [apply (Mono _ _ s3 s1); lra|]. split; [apply (Mono _ _ s3 s2); lra|]. split; [exact P3|].
  destruct D3 as [->|D3]; [|tauto]. destruct D2 as [->|D2]; [|tauto]. destruct D1 as [->|D1]; tauto.
Qed.
Lemma ratio2 t u1 u2 a b : 0 <= t -> 0 <= u1 -> 0 <= u2 ->
  exists s, 0 <= s <= t /\ 0 <= u1 + s * a /\ 0 <= u2 + s * b /\ (s = t \/ (u1 + s * a = 0 /\ a <> 0) \/ (u2 + s * b = 0 /\ b <> 0)).
Proof.
  intros Ht H1 H2. destruct (ratio3 t u1 u2 0 a b 0 Ht H1 H2 (Rle_refl 0)) as (s & S & A & B & _ & D). exists s. repeat (split; [assumption|]).
  destruct D as [D|[D|[D|[_ D]]]]; tauto.
Qed.

(** Splitting off the first point. *)
Lemma hull_split x y ps p : hull (x :: y :: ps) p -> exists t q, 0 <= t <= 1 /\ hull (y :: ps) q /\ p = add3 (scale3 t x) (scale3 (1 - t) q).
Proof.
  intros (ws & (L & S & E) & P). destruct ws as [|w ws]; [discriminate|]. injection L as L. rewrite Rsum_cons in S. rewrite comb_cons in E.
  inversion P as [|? ? P0 Pw]; subst.
  assert (Sp : 0 <= Rsum ws) by (clear - Pw; induction Pw as [|v vs H _ IH]; [cbn; lra|rewrite Rsum_cons; lra]).
  destruct (Req_dec w 1) as [->|N].
  - exists 1, y. split; [lra|]. split; [apply hull_mem; left; reflexivity|].
    assert (Z : Forall (eq 0) ws).
    { assert (S0 : Rsum ws = 0) by lra. clear - Pw S0. induction Pw as [|v vs H Hv IH]; [constructor|]. rewrite Rsum_cons in S0.
      assert (0 <= Rsum vs) by (clear - Hv; induction Hv as [|v vs H _ IH]; [cbn; lra|rewrite Rsum_cons; lra]). constructor; [lra|apply IH; lra]. }
    assert (C : comb ws (y :: ps) = o3).
    { clear - Z. revert ws Z. generalize (y :: ps). intros l. induction l as [|z l IH]; intros ws Z; [destruct ws; reflexivity|]. destruct ws as [|v ws]; [reflexivity|].
      inversion Z as [|? ? Z0 Z']; subst. rewrite comb_cons, IH by exact Z'. p3 z. unfold o3. cbn. eq3; ring. }
    rewrite C. p3 x; p3 y. unfold o3. cbn. eq3; ring.
  - exists w, (scale3 (/ (1 - w)) (comb ws (y :: ps))). assert (W : 0 < 1 - w) by lra. split; [lra|]. split.
    + exists (map (Rmult (/ (1 - w))) ws). split; [split; [rewrite map_length; exact L|split]|].
      * assert (G : forall l, Rsum (map (Rmult (/ (1 - w))) l) = / (1 - w) * Rsum l) by (induction l as [|v l IH]; [cbn; ring|cbn [map]; rewrite !Rsum_cons, IH; ring]).
        rewrite G. replace (Rsum ws) with (1 - w) by lra. field. lra.
      * generalize (y :: ps). intros l. clear. revert l. induction ws as [|v ws IH]; intros [|z l]; try (unfold o3; cbn; eq3; ring).
        cbn [map]. rewrite !comb_cons, <- IH. destruct (comb ws l) as [[? ?] ?]. p3 z. cbn. eq3; ring.
      * apply Forall_map. eapply Forall_impl; [|exact Pw]. cbn. intros v Hv. apply Rmult_le_pos; [left; apply Rinv_0_lt_compat; exact W|exact Hv].
    + destruct (comb ws (y :: ps)) as [[? ?] ?]. p3 x. cbn. eq3; field; lra.
Qed.
Lemma hull_one x p : hull [x] p -> p = x.
Proof. intros (ws & (L & S & E) & _). destruct ws as [|w [|]]; try discriminate L. cbn in S. rewrite E. assert (w = 1) by lra. subst w. p3 x. unfold o3. cbn. eq3; ring. Qed.
Lemma hull3 x y z a b c p : x + y + z = 1 -> 0 <= x -> 0 <= y -> 0 <= z -> p = add3 (scale3 x a) (add3 (scale3 y b) (scale3 z c)) -> hull [a; b; c] p.
Proof.
  intros Sx X Y Z Ep. exists [x; y; z]. split; [|repeat (apply Forall_cons; [assumption|]); constructor].
  split; [reflexivity|]. split; [unfold Rsum; cbn [fold_right]; lra|]. rewrite Ep. p3 a. p3 b. p3 c. unfold o3. cbn. eq3; ring.
Qed.
Lemma hull3_inv a b c p : hull [a; b; c] p -> exists x y z, x + y + z = 1 /\ 0 <= x /\ 0 <= y /\ 0 <= z /\ p = add3 (scale3 x a) (add3 (scale3 y b) (scale3 z c)).
Proof.
  intros (ws & (L & S & E) & P). destruct ws as [|x [|y [|z [|]]]]; try discriminate L. exists x, y, z. unfold Rsum in S. cbn [fold_right] in S.
  inversion P as [|? ? Px P1]; subst. inversion P1 as [|? ? Py P2]; subst. inversion P2 as [|? ? Pz _]; subst. repeat (split; [lra|]).
  p3 a; p3 b; p3 c. unfold o3. cbn. eq3; ring.
Qed.
Lemma hull2_inv a b p : hull [a; b] p -> exists x y, x + y = 1 /\ 0 <= x /\ 0 <= y /\ p = add3 (scale3 x a) (scale3 y b).
Proof.
  intros (ws & (L & S & E) & P). destruct ws as [|x [|y [|]]]; try discriminate L. exists x, y. unfold Rsum in S. cbn [fold_right] in S.
  inversion P as [|? ? Px P1]; subst. inversion P1 as [|? ? Py _]; subst. repeat (split; [lra|]).
  p3 a; p3 b. unfold o3. cbn. eq3; ring.
Qed.

(** On a line. *)
Lemma diff2 (a0 a1 b0 b1 c : R) : (b0 - a0) * (b0 - a0) + (b1 - a1) * (b1 - a1) = 0 -> (a0, a1, c) = (b0, b1, c).
Proof.
  intros Z. pose proof (Rle_0_sqr (b0 - a0)) as P0. pose proof (Rle_0_sqr (b1 - a1)) as P1. unfold Rsqr in P0, P1.
  assert (Z0 : b0 - a0 = 0) by (apply Rsqr_eq_0; unfold Rsqr; lra). assert (Z1 : b1 - a1 = 0) by (apply Rsqr_eq_0; unfold Rsqr; lra).
  replace b0 with a0 by lra. replace b1 with a1 by lra. reflexivity.
Qed.
Lemma line_param m n d a b y : (m, n) <> (0, 0) -> ground a -> ground b -> ground y -> a <> b ->
  dot3 (m, n, 0) a = d -> dot3 (m, n, 0) b = d -> dot3 (m, n, 0) y = d ->
  exists al be, al + be = 1 /\ y = add3 (scale3 al a) (scale3 be b).
Proof.
  destruct a as [[a0 a1] a2], b as [[b0 b1] b2], y as [[y0 y1] y2]. unfold ground, height. cbn. intros Nz -> -> -> Ne Ea Eb Ey.
  assert (Q : (b0 - a0) * (b0 - a0) + (b1 - a1) * (b1 - a1) <> 0).
  { intros Z. apply Ne, diff2, Z. }
  assert (X : (b0 - a0) * (y1 - a1) - (b1 - a1) * (y0 - a0) = 0).
  { assert (X1 : m * (b0 - a0) + n * (b1 - a1) = 0) by lra. assert (X2 : m * (y0 - a0) + n * (y1 - a1) = 0) by lra.
    destruct (Req_dec m 0) as [->|Hm].
    - destruct (Req_dec n 0) as [->|Hn]; [exfalso; apply Nz; reflexivity|].
      assert (Z1 : b1 - a1 = 0) by (apply (Rmult_eq_reg_l n); [lra|exact Hn]). assert (Z2 : y1 - a1 = 0) by (apply (Rmult_eq_reg_l n); [lra|exact Hn]). rewrite Z1, Z2. ring.
    - apply (Rmult_eq_reg_l m); [|exact Hm]. rewrite Rmult_0_r.
      replace (m * ((b0 - a0) * (y1 - a1) - (b1 - a1) * (y0 - a0))) with ((m * (b0 - a0)) * (y1 - a1) - (b1 - a1) * (m * (y0 - a0))) by ring.
      replace (m * (b0 - a0)) with (- n * (b1 - a1)) by lra. replace (m * (y0 - a0)) with (- n * (y1 - a1)) by lra. ring. }
  set (D := (b0 - a0) * (b0 - a0) + (b1 - a1) * (b1 - a1)) in *. set (e := ((b0 - a0) * (y0 - a0) + (b1 - a1) * (y1 - a1)) / D).
  exists (1 - e), e. split; [ring|]. eq3; [| |ring]; apply (Rmult_eq_reg_l D); try exact Q; unfold e.
  - transitivity (D * a0 + (b0 - a0) * ((b0 - a0) * (y0 - a0) + (b1 - a1) * (y1 - a1))); [|field; exact Q]. unfold D. 
    transitivity (((b0 - a0) * (b0 - a0) + (b1 - a1) * (b1 - a1)) * a0 + (b0 - a0) * ((b0 - a0) * (y0 - a0) + (b1 - a1) * (y1 - a1)) - (b1 - a1) * ((b0 - a0) * (y1 - a1) - (b1 - a1) * (y0 - a0))); [ring|rewrite X; ring].
  - transitivity (D * a1 + (b1 - a1) * ((b0 - a0) * (y0 - a0) + (b1 - a1) * (y1 - a1))); [|field; exact Q]. unfold D.
    transitivity (((b0 - a0) * (b0 - a0) + (b1 - a1) * (b1 - a1)) * a1 + (b1 - a1) * ((b0 - a0) * (y0 - a0) + (b1 - a1) * (y1 - a1)) + (b0 - a0) * ((b0 - a0) * (y1 - a1) - (b1 - a1) * (y0 - a0))); [ring|rewrite X; ring].
Qed.
Lemma combine2 (t u1 u2 s al be : R) (y a b : R3) : y = add3 (scale3 al a) (scale3 be b) ->
  add3 (scale3 t y) (add3 (scale3 u1 a) (scale3 u2 b)) = add3 (scale3 (t - s) y) (add3 (scale3 (u1 + s * al) a) (scale3 (u2 + s * be) b)).
Proof. intros ->. p3 a; p3 b. cbn. eq3; ring. Qed.
Lemma carath1 m n d ps : (m, n) <> (0, 0) -> Forall ground ps -> Forall (fun p => dot3 (m, n, 0) p = d) ps -> forall q, hull ps q ->
  (exists a b, In a ps /\ In b ps /\ a <> b /\ hull [a; b] q) \/ (exists a, Forall (eq a) ps /\ q = a).
Proof.
  intros Nz G D. induction ps as [|y ps IH]; intros q Hq.
  { destruct Hq as (ws & (L & S & _) & _). destruct ws; [cbn in S; lra|discriminate]. }
  inversion G as [|? ? Gy Gp]; subst. inversion D as [|? ? Dy Dp]; subst. specialize (IH Gp Dp).
  destruct ps as [|z ps]; [right; exists y; split; [repeat constructor|apply hull_one; exact Hq]|].
  destruct (hull_split _ _ _ _ Hq) as (t & r & Ht & Hr & Eq). destruct (IH r Hr) as [(a & b & Ia & Ib & Ne & Hab)|(a & Ea & ->)].
  - left. assert (Gps := Gp). rewrite Forall_forall in Gps, Dp. 
    destruct (line_param m n (dot3 (m, n, 0) y) a b y Nz (Gps a Ia) (Gps b Ib) Gy Ne (Dp a Ia) (Dp b Ib) eq_refl) as (al & be & Sab & Ey).
    destruct (hull2_inv _ _ _ Hab) as (x1 & x2 & Sx & X1 & X2 & Er).
    destruct (ratio2 t ((1 - t) * x1) ((1 - t) * x2) al be) as (s & Hs & P1 & P2 & Cs); [lra|apply Rmult_le_pos; lra|apply Rmult_le_pos; lra|].
    assert (Eq' : q = add3 (scale3 (t - s) y) (add3 (scale3 ((1 - t) * x1 + s * al) a) (scale3 ((1 - t) * x2 + s * be) b))).
    { rewrite <- (combine2 _ _ _ s al be y a b Ey), Eq, Er. p3 a; p3 b; p3 y. cbn. eq3; ring. }
    assert (Tot : (t - s) + (((1 - t) * x1 + s * al) + ((1 - t) * x2 + s * be)) = 1).
    { transitivity (t - s + ((1 - t) * (x1 + x2) + s * (al + be))); [ring|rewrite Sx, Sab; ring]. }
    destruct Cs as [->|[[Z N]|[Z N]]].
    + exists a, b. split; [right; exact Ia|]. split; [right; exact Ib|]. split; [exact Ne|].
      eapply hull2; [|exact P1|exact P2|]; [lra|]. rewrite Eq'. p3 a; p3 b; p3 y. cbn. eq3; ring.
    + exists y, b. split; [left; reflexivity|]. split; [right; exact Ib|]. split.
      * intros E. apply N. rewrite E in Ey. assert (be = 1 - al) by lra. subst be. destruct a as [[a0 a1] a2], b as [[b0 b1] b2]. cbn in Ey. injection Ey as F0 F1 F2.
        destruct (Req_dec al 0) as [|Na]; [assumption|exfalso]. apply Ne. eq3; apply (Rmult_eq_reg_l al); try exact Na; lra.
      * eapply (hull2 (t - s) ((1 - t) * x2 + s * be)); [|lra|exact P2|]; [lra|]. rewrite Eq', Z. p3 a; p3 b; p3 y. cbn. eq3; ring.
    + exists y, a. split; [left; reflexivity|]. split; [right; exact Ia|]. split.
      * intros E. apply N. rewrite E in Ey. assert (al = 1 - be) by lra. subst al. destruct a as [[a0 a1] a2], b as [[b0 b1] b2]. cbn in Ey. injection Ey as F0 F1 F2.
        destruct (Req_dec be 0) as [|Na]; [assumption|exfalso]. apply Ne. eq3; apply (Rmult_eq_reg_l be); try exact Na; lra.
      * eapply (hull2 (t - s) ((1 - t) * x1 + s * al)); [|lra|exact P1|]; [lra|]. rewrite Eq', Z. p3 a; p3 b; p3 y. cbn. eq3; ring.
  - destruct (classic (y = a)) as [->|Ne].
    + right. exists a. split; [constructor; [reflexivity|exact Ea]|]. rewrite Eq. p3 a. cbn. eq3; ring.
    + left. exists y, a. split; [left; reflexivity|]. split; [right; inversion Ea; subst; left; reflexivity|]. split; [exact Ne|].
      eapply (hull2 t (1 - t)); [ring|lra|lra|exact Eq].
Qed.

(** In the plane. *)
Lemma combine3 (t u1 u2 u3 s al be ga : R) (y a b c : R3) : y = add3 (scale3 al a) (add3 (scale3 be b) (scale3 ga c)) ->
  add3 (scale3 t y) (add3 (scale3 u1 a) (add3 (scale3 u2 b) (scale3 u3 c))) =
  add3 (scale3 (t - s) y) (add3 (scale3 (u1 + s * al) a) (add3 (scale3 (u2 + s * be) b) (scale3 (u3 + s * ga) c))).
Proof. intros ->. p3 a; p3 b; p3 c. cbn. eq3; ring. Qed.
Lemma flat_perm al be ga a b c y : al + be + ga = 1 -> y = add3 (scale3 al a) (add3 (scale3 be b) (scale3 ga c)) -> ~ flat3 a b c ->
  (al <> 0 -> ~ flat3 y b c) /\ (be <> 0 -> ~ flat3 y a c) /\ (ga <> 0 -> ~ flat3 y a b).
Proof.
  intros S -> NF. unfold flat3 in *. assert (ga = 1 - al - be) by lra. subst ga.
  assert (E : det2 (sub3 b (add3 (scale3 al a) (add3 (scale3 be b) (scale3 (1 - al - be) c)))) (sub3 c (add3 (scale3 al a) (add3 (scale3 be b) (scale3 (1 - al - be) c)))) = al * det2 (sub3 b a) (sub3 c a))
    by (p3 a; p3 b; p3 c; cbn; ring).
  assert (E1 : det2 (sub3 a (add3 (scale3 al a) (add3 (scale3 be b) (scale3 (1 - al - be) c)))) (sub3 c (add3 (scale3 al a) (add3 (scale3 be b) (scale3 (1 - al - be) c)))) = - be * det2 (sub3 b a) (sub3 c a))
    by (p3 a; p3 b; p3 c; cbn; ring).
  assert (E2 : det2 (sub3 a (add3 (scale3 al a) (add3 (scale3 be b) (scale3 (1 - al - be) c)))) (sub3 b (add3 (scale3 al a) (add3 (scale3 be b) (scale3 (1 - al - be) c)))) = (1 - al - be) * det2 (sub3 b a) (sub3 c a))
    by (p3 a; p3 b; p3 c; cbn; ring).
  rewrite E, E1, E2. split; [|split]; intros N Z; apply Rmult_integral in Z as [Z|Z]; try contradiction; lra.
Qed.
Lemma carath2 ps : Forall ground ps -> forall p, hull ps p ->
  on_line ps \/ exists a b c, In a ps /\ In b ps /\ In c ps /\ ~ flat3 a b c /\ hull [a; b; c] p.
Proof.
  intros G. induction ps as [|y ps IH]; intros p Hp; [left; apply (proj1 (conj (ex_intro _ 1 (ex_intro _ 0 (ex_intro _ 0 (conj (fun E : (1,0) = (0,0) => R1_neq_R0 (f_equal fst E)) (Forall_nil _))))) I))|].
  inversion G as [|? ? Gy Gp]; subst. specialize (IH Gp).
  destruct ps as [|z ps]; [left; exists 1, 0, (dot3 (1, 0, 0) y); split; [intros E; injection E; lra|repeat constructor]|].
  destruct (classic (on_line (y :: z :: ps))) as [OL|NL]; [left; exact OL|right].
  destruct (hull_split _ _ _ _ Hp) as (t & r & Ht & Hr & Eq). destruct (IH r Hr) as [(m & n & d & Nz & OL)|(a & b & c & Ia & Ib & Ic & NF & Habc)].
  - destruct (carath1 m n d (z :: ps) Nz Gp OL r Hr) as [(a & b & Ia & Ib & Ne & Hab)|(a & Ea & ->)].
    + exists y, a, b. split; [left; reflexivity|]. split; [right; exact Ia|]. split; [right; exact Ib|]. split.
      * intros F. apply NL. exists m, n, d. split; [exact Nz|]. constructor; [|exact OL]. rewrite Forall_forall in OL, Gp.
        pose proof (OL a Ia) as Da. pose proof (OL b Ib) as Db. pose proof (Gp a Ia) as Ga. pose proof (Gp b Ib) as Gb.
        (* y is on the line through a and b *)
        assert (Y : exists e, y = add3 a (scale3 e (sub3 b a))).
        { clear - F Ga Gb Gy Ne. destruct a as [[a0 a1] a2], b as [[b0 b1] b2], y as [[y0 y1] y2]. unfold ground, height, flat3 in *. cbn in *. subst.
          set (D := (b0 - a0) * (b0 - a0) + (b1 - a1) * (b1 - a1)).
          assert (Q : D <> 0) by (intros Z; apply Ne, diff2, Z).
          assert (X : (b0 - a0) * (y1 - a1) - (b1 - a1) * (y0 - a0) = 0) by lra.
          exists (((b0 - a0) * (y0 - a0) + (b1 - a1) * (y1 - a1)) / D). eq3; [| |ring]; apply (Rmult_eq_reg_l D); try exact Q.
          - transitivity (D * a0 + (b0 - a0) * ((b0 - a0) * (y0 - a0) + (b1 - a1) * (y1 - a1))); [|field; exact Q]. unfold D.
            transitivity (((b0 - a0) * (b0 - a0) + (b1 - a1) * (b1 - a1)) * a0 + (b0 - a0) * ((b0 - a0) * (y0 - a0) + (b1 - a1) * (y1 - a1)) - (b1 - a1) * ((b0 - a0) * (y1 - a1) - (b1 - a1) * (y0 - a0))); [ring|rewrite X; ring].
          - transitivity (D * a1 + (b1 - a1) * ((b0 - a0) * (y0 - a0) + (b1 - a1) * (y1 - a1))); [|field; exact Q]. unfold D.
            transitivity (((b0 - a0) * (b0 - a0) + (b1 - a1) * (b1 - a1)) * a1 + (b1 - a1) * ((b0 - a0) * (y0 - a0) + (b1 - a1) * (y1 - a1)) + (b0 - a0) * ((b0 - a0) * (y1 - a1) - (b1 - a1) * (y0 - a0))); [ring|rewrite X; ring]. }
        destruct Y as (e & ->). destruct a as [[a0 a1] a2], b as [[b0 b1] b2]. cbn in *.
        transitivity ((1 - e) * (m * a0 + n * a1 + 0 * a2) + e * (m * b0 + n * b1 + 0 * b2)); [ring|rewrite Da, Db; ring].
      * destruct (hull2_inv _ _ _ Hab) as (x1 & x2 & Sx & X1 & X2 & Er).
        apply (hull3 t ((1 - t) * x1) ((1 - t) * x2)); [|lra|apply Rmult_le_pos; lra|apply Rmult_le_pos; lra|].
        -- transitivity (t + (1 - t) * (x1 + x2)); [ring|rewrite Sx; ring].
        -- rewrite Eq, Er. p3 a; p3 b; p3 y. cbn. eq3; ring.
    + exfalso. apply NL. clear - Ea. destruct y as [[x0 x1] x2], a as [[u v] w].
      assert (K : forall m n, dot3 (m, n, 0) (x0, x1, x2) = dot3 (m, n, 0) (u, v, w) -> (m, n) <> (0, 0) -> on_line ((x0, x1, x2) :: z :: ps)).
      { intros m n E Nz. exists m, n, (dot3 (m, n, 0) (u, v, w)). split; [exact Nz|]. constructor; [exact E|]. eapply Forall_impl; [|exact Ea]. intros q <-. reflexivity. }
      destruct (Req_dec (u - x0) 0) as [Z|Z]; [destruct (Req_dec (v - x1) 0) as [Z'|Z']|].
      * apply (K 1 0); [cbn; lra|intros E; injection E; lra].
      * apply (K (v - x1) (- (u - x0))); [cbn; ring|intros E; injection E; lra].
      * apply (K (v - x1) (- (u - x0))); [cbn; ring|intros E; injection E; lra].
  - assert (Gps := Gp). rewrite Forall_forall in Gps.
    destruct (bary3_exists 0 a b c y (Gps a Ia) (Gps b Ib) (Gps c Ic) Gy NF) as (ws & (Lw & Sw & Ew)).
    destruct ws as [|al [|be [|ga [|]]]]; try discriminate Lw. unfold Rsum in Sw. cbn [fold_right] in Sw.
    assert (Sabc : al + be + ga = 1) by lra.
    assert (Ey : y = add3 (scale3 al a) (add3 (scale3 be b) (scale3 ga c))) by (rewrite Ew; p3 a; p3 b; p3 c; unfold o3; cbn; eq3; ring).
    destruct (hull3_inv _ _ _ _ Habc) as (x1 & x2 & x3 & Sx & X1 & X2 & X3 & Er).
    destruct (ratio3 t ((1 - t) * x1) ((1 - t) * x2) ((1 - t) * x3) al be ga) as (s & Hs & P1 & P2 & P3 & Cs); [lra|apply Rmult_le_pos; lra|apply Rmult_le_pos; lra|apply Rmult_le_pos; lra|].
    assert (Eq' : p = add3 (scale3 (t - s) y) (add3 (scale3 ((1 - t) * x1 + s * al) a) (add3 (scale3 ((1 - t) * x2 + s * be) b) (scale3 ((1 - t) * x3 + s * ga) c)))).
    { rewrite <- (combine3 _ _ _ _ s al be ga y a b c Ey), Eq, Er. clear. p3 a; p3 b; p3 c; p3 y. cbn. eq3; ring. }
    assert (Tot : (t - s) + (((1 - t) * x1 + s * al) + ((1 - t) * x2 + s * be) + ((1 - t) * x3 + s * ga)) = 1).
    { transitivity (t - s + ((1 - t) * (x1 + x2 + x3) + s * (al + be + ga))); [ring|rewrite Sx, Sabc; ring]. }
    destruct (flat_perm al be ga a b c y Sabc Ey NF) as (F1 & F2 & F3).
    destruct Cs as [->|[[Z N]|[[Z N]|[Z N]]]].
    + exists a, b, c. split; [right; exact Ia|]. split; [right; exact Ib|]. split; [right; exact Ic|]. split; [exact NF|].
      eapply hull3; [|exact P1|exact P2|exact P3|]; [lra|]. rewrite Eq'. clear. p3 a; p3 b; p3 c; p3 y. cbn. eq3; ring.
    + exists y, b, c. split; [left; reflexivity|]. split; [right; exact Ib|]. split; [right; exact Ic|]. split; [apply F1, N|].
      eapply (hull3 (t - s)); [|lra|exact P2|exact P3|]; [lra|]. rewrite Eq', Z. clear. p3 a; p3 b; p3 c; p3 y. cbn. eq3; ring.
    + exists y, a, c. split; [left; reflexivity|]. split; [right; exact Ia|]. split; [right; exact Ic|]. split; [apply F2, N|].
      eapply (hull3 (t - s)); [|lra|exact P1|exact P3|]; [lra|]. rewrite Eq', Z. clear. p3 a; p3 b; p3 c; p3 y. cbn. eq3; ring.
    + exists y, a, b. split; [left; reflexivity|]. split; [right; exact Ia|]. split; [right; exact Ib|]. split; [apply F3, N|].
      eapply (hull3 (t - s)); [|lra|exact P1|exact P2|]; [lra|]. rewrite Eq', Z. clear. p3 a; p3 b; p3 c; p3 y. cbn. eq3; ring.
Qed.

(** All triples of indices cover the hull, unless all points lie on a line. *)
Definition triples (n : nat) : list (nat * nat * nat) := list_prod (list_prod (seq 0 n) (seq 0 n)) (seq 0 n).
Lemma triples_spec n i j k : In (i, j, k) (triples n) <-> (i < n)%nat /\ (j < n)%nat /\ (k < n)%nat.
Proof. unfold triples. rewrite !in_prod_iff, !in_seq. lia. Qed.
Lemma pt2_ground l : ground (pt2 l).
Proof. unfold pt2, ground, height. destruct l as [|? [|? [|]]]; reflexivity. Qed.
Lemma triples_cover q : ~ on_line (map pt2 q) -> covers2 q (triples (length q)).
Proof.
  intros NL p Hp. assert (G : Forall ground (map pt2 q)) by (apply Forall_map, Forall_forall; intros l _; apply pt2_ground).
  destruct (carath2 _ G p Hp) as [OL|(a & b & c & Ia & Ib & Ic & NF & H)]; [contradiction|].
  apply in_map_iff in Ia as (a' & <- & Ia). apply in_map_iff in Ib as (b' & <- & Ib). apply in_map_iff in Ic as (c' & <- & Ic).
  apply In_nth_error in Ia as (i & Na), Ib as (j & Nb), Ic as (k & Nc).
  exists i, j, k, a', b', c'. split; [|auto 10]. apply triples_spec. repeat split; apply nth_error_Some; congruence.
Qed.
(** Flatness of all triples is decidable and means that all points lie on a line. *)
Definition all_flat (q : list (list R)) : bool :=
  forallb (fun '(i, j, k) => if Req_EM_T (det2 (sub3 (pt2 (nth j q [])) (pt2 (nth i q []))) (sub3 (pt2 (nth k q [])) (pt2 (nth i q [])))) 0 then true else false) (triples (length q)).
Lemma all_flat_line q : all_flat q = true -> on_line (map pt2 q).
Proof.
  intros H. destruct (classic (on_line (map pt2 q))) as [|NL]; [assumption|exfalso].
  destruct q as [|l q']; [apply NL; exists 1, 0, 0; split; [intros E; injection E; lra|constructor]|]. set (q := l :: q') in *.
  destruct (triples_cover q NL (pt2 l)) as (i & j & k & a & b & c & It & Na & Nb & Nc & NF & _); [apply hull_mem; left; reflexivity|].
  unfold all_flat in H. rewrite forallb_forall in H. specialize (H (i, j, k) It). cbn beta iota in H.
  rewrite (nth_error_nth _ _ [] Na), (nth_error_nth _ _ [] Nb), (nth_error_nth _ _ [] Nc) in H. destruct (Req_EM_T _ 0) as [E|]; [exact (NF E)|discriminate].
Qed.
Lemma line_all_flat q : on_line (map pt2 q) -> all_flat q = true.
Proof.
  intros (m & n & d & Nz & H). unfold all_flat. apply forallb_forall. intros [[i j] k] It. apply triples_spec in It as (Hi & Hj & Hk).
  rewrite Forall_map, Forall_forall in H. pose proof (H _ (nth_In q [] Hi)) as Di. pose proof (H _ (nth_In q [] Hj)) as Dj. pose proof (H _ (nth_In q [] Hk)) as Dk.
  destruct (Req_EM_T _ 0) as [|N]; [reflexivity|exfalso]. apply N.
  destruct (pt2 (nth i q [])) as [[a0 a1] a2], (pt2 (nth j q [])) as [[b0 b1] b2], (pt2 (nth k q [])) as [[y0 y1] y2]. cbn in *.
  assert (X1 : m * (b0 - a0) + n * (b1 - a1) = 0) by lra. assert (X2 : m * (y0 - a0) + n * (y1 - a1) = 0) by lra.
  destruct (Req_dec m 0) as [->|Hm].
  - destruct (Req_dec n 0) as [->|Hn]; [exfalso; apply Nz; reflexivity|].
    assert (Z1 : b1 - a1 = 0) by (apply (Rmult_eq_reg_l n); [lra|exact Hn]). assert (Z2 : y1 - a1 = 0) by (apply (Rmult_eq_reg_l n); [lra|exact Hn]). rewrite Z1, Z2. ring.
  - apply (Rmult_eq_reg_l m); [|exact Hm]. rewrite Rmult_0_r.
    replace (m * ((b0 - a0) * (y1 - a1) - (b1 - a1) * (y0 - a0))) with ((m * (b0 - a0)) * (y1 - a1) - (b1 - a1) * (m * (y0 - a0))) by ring.
    replace (m * (b0 - a0)) with (- n * (b1 - a1)) by lra. replace (m * (y0 - a0)) with (- n * (y1 - a1)) by lra. ring.
Qed.

Definition covering (q : list (list R)) : option (list (nat * nat * nat)) := if all_flat q then None else Some (triples (length q)).
Lemma covering_spec : (forall q l, covering q = Some l -> covers2 q l) /\ (forall q, covering q = None -> on_line (map pt2 q)) /\
  (forall q l, covering q = Some l -> Forall (fun '(i, j, k) => (i < length q)%nat /\ (j < length q)%nat /\ (k < length q)%nat) l).
Proof.
  unfold covering. split; [|split].
  - intros q l H. destruct (all_flat q) eqn:E; [discriminate|]. injection H as <-. apply triples_cover. intros OL. apply line_all_flat in OL. congruence.
  - intros q H. destruct (all_flat q) eqn:E; [|discriminate]. apply all_flat_line, E.
  - intros q l H. destruct (all_flat q); [discriminate|]. injection H as <-. apply Forall_forall. intros [[i j] k] I. apply triples_spec, I.
Qed.
