(** The border of an edge-to-edge set of triangles in an arbitrary plane of space. *)
From Coq Require Import Reals List ZArith Lia Lra Psatz Bool Classical Arith.
From Verif Require Import Model.Tau Model.Arr Spec.Value Spec.RVec Spec.Sets Spec.IcoSpec Spec.Space Spec.Plane Spec.Outline Spec.Edges
  Proofs.NumLemmas Proofs.PlaneLemmas Proofs.Polytope Proofs.Frontier Proofs.Frontier3.
Import ListNotations.
Local Open Scope R_scope.

(** A linear bijection that takes the plane n.x = d to the plane z = d. *)
Definition turn (n x : R3) : R3 :=
  let '(a, b, c) := n in let '(x0, x1, x2) := x in
  if Req_EM_T c 0 then if Req_EM_T b 0 then (x1, x2, dot3 n x) else (x0, x2, dot3 n x) else (x0, x1, dot3 n x).
Lemma turn_height n x : height (turn n x) = dot3 n x.
Proof. destruct n as [[a b] c], x as [[x0 x1] x2]. unfold turn, height. destruct (Req_EM_T c 0), (Req_EM_T b 0); reflexivity. Qed.
Lemma turn_add n w x y : turn n (add3 (scale3 w x) y) = add3 (scale3 w (turn n x)) (turn n y).
Proof. destruct n as [[a b] c], x as [[x0 x1] x2], y as [[y0 y1] y2]. unfold turn. cbn. destruct (Req_EM_T c 0), (Req_EM_T b 0); cbn; (apply f_equal2; [apply f_equal2|]); ring. Qed.
Lemma turn_o n : turn n o3 = o3.
Proof. destruct n as [[a b] c]. unfold turn, o3. cbn. destruct (Req_EM_T c 0), (Req_EM_T b 0); (apply f_equal2; [apply f_equal2|]); ring. Qed.
Lemma turn_comb n : forall ws ps, turn n (comb ws ps) = comb ws (map (turn n) ps).
Proof. induction ws as [|w ws IH]; intros [|p ps]; cbn [comb map]; try apply turn_o. rewrite turn_add, IH. reflexivity. Qed.
Lemma nonzero3 (a b c : R) : (a, b, c) <> o3 -> c = 0 -> b = 0 -> a <> 0.
Proof. intros N -> -> ->. apply N. reflexivity. Qed.
Lemma turn_inj n x y : n <> o3 -> turn n x = turn n y -> x = y.
Proof.
  destruct n as [[a b] c], x as [[x0 x1] x2], y as [[y0 y1] y2]. intros N. pose proof (nonzero3 a b c N) as Na. unfold turn. cbn.
  destruct (Req_EM_T c 0) as [Ec|Nc]; [destruct (Req_EM_T b 0) as [Eb|Nb]|]; intros [= E1 E2 E3]; subst.
  - assert (x0 = y0) as -> by (apply (Rmult_eq_reg_l a); [lra|auto]). reflexivity.
  - assert (x1 = y1) as -> by (apply (Rmult_eq_reg_l b); [lra|auto]). reflexivity.
  - assert (x2 = y2) as -> by (apply (Rmult_eq_reg_l c); [lra|auto]). reflexivity.
Qed.
Lemma turn_surj n z : n <> o3 -> exists x, turn n x = z.
Proof.
  destruct n as [[a b] c], z as [[z0 z1] z2]. intros N. pose proof (nonzero3 a b c N) as Na.
  destruct (Req_EM_T c 0) as [Ec|Nc]; [destruct (Req_EM_T b 0) as [Eb|Nb]|].
  - exists ((z2 / a), z0, z1). unfold turn. cbn. destruct (Req_EM_T c 0); [|lra]. destruct (Req_EM_T b 0); [|lra]. apply f_equal2; [reflexivity|]. subst. field. auto.
  - exists (z0, ((z2 - a * z0) / b), z1). unfold turn. cbn. destruct (Req_EM_T c 0); [|lra]. destruct (Req_EM_T b 0); [lra|]. apply f_equal2; [reflexivity|]. subst. field. auto.
  - exists (z0, z1, (z2 - a * z0 - b * z1) / c). unfold turn. cbn. destruct (Req_EM_T c 0); [lra|]. apply f_equal2; [reflexivity|]. field. auto.
Qed.
Lemma turn_hull n ps x : n <> o3 -> (hull (map (turn n) ps) (turn n x) <-> hull ps x).
Proof.
  intros N. split.
  - intros (ws & (L & S & E) & P). exists ws. split; [|exact P]. split; [rewrite map_length in L; exact L|]. split; [exact S|]. apply (turn_inj n _ _ N). rewrite turn_comb. exact E.
  - intros (ws & (L & S & E) & P). exists ws. split; [|exact P]. split; [rewrite map_length; exact L|]. split; [exact S|]. rewrite <- turn_comb, E. reflexivity.
Qed.
(** Continuity in both directions. *)
Definition size1 (n : R3) : R := let '(a, b, c) := n in Rabs a + Rabs b + Rabs c.
Lemma lin_bound a b c u v w e : 0 <= e -> Rabs u <= e -> Rabs v <= e -> Rabs w <= e -> Rabs (a * u + b * v + c * w) <= (Rabs a + Rabs b + Rabs c) * e.
Proof.
  intros He Hu Hv Hw. pose proof (Rabs_triang (a * u + b * v) (c * w)). pose proof (Rabs_triang (a * u) (b * v)). rewrite !Rabs_mult in *.
  pose proof (Rabs_pos a). pose proof (Rabs_pos b). pose proof (Rabs_pos c). nra.
Qed.
Lemma turn_near n e x y : 0 < e -> cube (e / (1 + size1 n)) x y -> cube e (turn n x) (turn n y).
Proof.
  intros He. destruct n as [[a b] c], x as [[x0 x1] x2], y as [[y0 y1] y2]. unfold size1. set (K := Rabs a + Rabs b + Rabs c).
  assert (HK : 0 <= K) by (unfold K; pose proof (Rabs_pos a); pose proof (Rabs_pos b); pose proof (Rabs_pos c); lra).
  set (f := e / (1 + K)). assert (Hf : 0 < f) by (unfold f; apply Rdiv_lt_0_compat; lra). assert (Ef : f * (1 + K) = e) by (unfold f; field; lra).
  unfold cube, c0, c1, c2. cbn [fst snd]. intros (H0 & H1 & H2).
  assert (Hd : Rabs (a * y0 + b * y1 + c * y2 - (a * x0 + b * x1 + c * x2)) < e).
  { replace (a * y0 + b * y1 + c * y2 - (a * x0 + b * x1 + c * x2)) with (a * (y0 - x0) + b * (y1 - x1) + c * (y2 - x2)) by ring.
    eapply Rle_lt_trans; [apply (lin_bound a b c _ _ _ f); lra|]. fold K. nra. }
  assert (f <= e) by nra.
  unfold turn. cbn [dot3]. destruct (Req_EM_T c 0), (Req_EM_T b 0); cbn [fst snd]; repeat split; lra.
Qed.
Lemma div_bound z k e : k <> 0 -> Rabs (z / k) < e <-> Rabs z < e * Rabs k.
Proof.
  intros N. assert (0 < Rabs k) by (apply Rabs_pos_lt; exact N). unfold Rdiv. rewrite Rabs_mult, Rabs_inv. split; intros Hz.
  - apply (Rmult_lt_compat_r (Rabs k)) in Hz; [|assumption]. rewrite Rmult_assoc, Rinv_l, Rmult_1_r in Hz by lra. exact Hz.
  - apply (Rmult_lt_reg_r (Rabs k)); [assumption|]. rewrite Rmult_assoc, Rinv_l, Rmult_1_r by lra. exact Hz.
Qed.
Lemma turn_back n : n <> o3 -> exists K, 0 < K /\ forall e x y, 0 < e -> cube (e / K) (turn n x) (turn n y) -> cube e x y.
Proof.
  destruct n as [[a b] c]. intros N. pose proof (nonzero3 a b c N) as Na.
  assert (G : exists k, 0 < k <= 1 /\ (if Req_EM_T c 0 then if Req_EM_T b 0 then k <= Rabs a else k <= Rabs b else k <= Rabs c)).
  { assert (Q : forall z, z <> 0 -> exists k, 0 < k <= 1 /\ k <= Rabs z).
    { intros z Nz. exists (Rmin 1 (Rabs z)). pose proof (Rabs_pos_lt z Nz). pose proof (Rmin_l 1 (Rabs z)). pose proof (Rmin_r 1 (Rabs z)). pose proof (Rmin_pos 1 (Rabs z)). lra. }
    destruct (Req_EM_T c 0) as [Ec|Nc]; [destruct (Req_EM_T b 0) as [Eb|Nb]|]; apply Q; auto. }
  destruct G as (k & Hk & Gk). set (S := Rabs a + Rabs b + Rabs c). assert (HS : 0 <= S) by (unfold S; pose proof (Rabs_pos a); pose proof (Rabs_pos b); pose proof (Rabs_pos c); lra).
  exists ((1 + S) / k). split; [apply Rdiv_lt_0_compat; lra|]. intros e x y He.
  set (f := e / ((1 + S) / k)). assert (Hf : 0 < f) by (unfold f; apply Rdiv_lt_0_compat; [lra|apply Rdiv_lt_0_compat; lra]). assert (Ef : f * (1 + S) = e * k) by (unfold f; field; lra).
  assert (f <= e) by nra.
  destruct x as [[x0 x1] x2], y as [[y0 y1] y2]. unfold turn, cube, c0, c1, c2. cbn [dot3].
  assert (Fin : forall z v, Rabs (z * v) <= (1 + S) * f -> (1 + S) * f <> Rabs (z * v) -> k <= Rabs z -> Rabs v < e).
  { intros z v H1 H2 H3. rewrite Rabs_mult in *. assert (Rabs z * Rabs v < e * k) by lra. pose proof (Rabs_pos v). nra. }
  assert (Tri : forall p q r, Rabs (p - q - r) <= Rabs p + Rabs q + Rabs r).
  { intros p q r. unfold Rabs. repeat destruct (Rcase_abs _); lra. }
  destruct (Req_EM_T c 0) as [Ec|Nc]; [destruct (Req_EM_T b 0) as [Eb|Nb]|]; cbn [fst snd]; intros (H0 & H1 & H2).
  - assert (Rabs (a * (y0 - x0)) < (1 + S) * f). { replace (a * (y0 - x0)) with (a * y0 + b * y1 + c * y2 - (a * x0 + b * x1 + c * x2)) by (subst; ring). nra. }
    split; [|lra]. apply (Fin a); lra.
  - assert (Rabs (b * (y1 - x1)) < (1 + S) * f).
    { replace (b * (y1 - x1)) with ((a * y0 + b * y1 + c * y2 - (a * x0 + b * x1 + c * x2)) - a * (y0 - x0) - 0) by (subst; ring).
      eapply Rle_lt_trans; [apply Tri|]. rewrite Rabs_R0, (Rabs_mult a). pose proof (Rabs_pos a). pose proof (Rabs_pos b). pose proof (Rabs_pos c). pose proof (Rabs_pos (y0 - x0)). unfold S. nra. }
    split; [lra|]. split; [|lra]. apply (Fin b); lra.
  - assert (Rabs (c * (y2 - x2)) < (1 + S) * f).
    { replace (c * (y2 - x2)) with ((a * y0 + b * y1 + c * y2 - (a * x0 + b * x1 + c * x2)) - a * (y0 - x0) - b * (y1 - x1)) by ring.
      eapply Rle_lt_trans; [apply Tri|]. rewrite (Rabs_mult a), (Rabs_mult b). pose proof (Rabs_pos a). pose proof (Rabs_pos b). pose proof (Rabs_pos c). pose proof (Rabs_pos (y0 - x0)). pose proof (Rabs_pos (y1 - x1)). unfold S. nra. }
    split; [lra|]. split; [lra|]. apply (Fin c); lra.
Qed.
Lemma turn_boundary n d (P Q : R3 -> Prop) x : n <> o3 -> (forall y, Q (turn n y) <-> P y) -> (boundary d Q (turn n x) <-> boundary_in n d P x).
Proof.
  intros N PQ. unfold boundary, boundary_in. rewrite turn_height. destruct (turn_back n N) as (K & HK & Back).
  split; intros (Hx & H); (split; [exact Hx|]); intros eps He.
  - assert (E2 : 0 < eps / 2 / K) by (apply Rdiv_lt_0_compat; lra). destruct (H _ E2) as ((y & H1 & H2 & H3) & z & G1 & G2 & G3).
    destruct (turn_surj n y N) as (y' & <-). destruct (turn_surj n z N) as (z' & <-). rewrite turn_height in H1, G1. rewrite PQ in H2, G2.
    split; [exists y'|exists z']; (split; [assumption|split; [assumption|]]); apply cube_dist, Back; try lra; apply dist_cube; assumption.
  - assert (E2 : 0 < eps / 2 / (1 + size1 n)).
    { apply Rdiv_lt_0_compat; [lra|]. destruct n as [[a b] c]. unfold size1. pose proof (Rabs_pos a); pose proof (Rabs_pos b); pose proof (Rabs_pos c); lra. }
    destruct (H _ E2) as ((y & H1 & H2 & H3) & z & G1 & G2 & G3).
    split; [exists (turn n y)|exists (turn n z)]; rewrite turn_height, PQ; (split; [assumption|split; [assumption|]]); apply cube_dist, turn_near; try lra; apply dist_cube; assumption.
Qed.

Lemma perp_cross n0 n1 n2 u0 u1 u2 v0 v1 v2 : n0 * u0 + n1 * u1 + n2 * u2 = 0 -> n0 * v0 + n1 * v1 + n2 * v2 = 0 ->
  n0 * (u2 * v0 - u0 * v2) = n1 * (u1 * v2 - u2 * v1) /\ n1 * (u0 * v1 - u1 * v0) = n2 * (u2 * v0 - u0 * v2) /\ n2 * (u1 * v2 - u2 * v1) = n0 * (u0 * v1 - u1 * v0).
Proof.
  intros Hu Hv.
  assert (E0 : n0 * (u2 * v0 - u0 * v2) - n1 * (u1 * v2 - u2 * v1) = u2 * (n0 * v0 + n1 * v1 + n2 * v2) - v2 * (n0 * u0 + n1 * u1 + n2 * u2)) by ring.
  assert (E1 : n1 * (u0 * v1 - u1 * v0) - n2 * (u2 * v0 - u0 * v2) = u0 * (n0 * v0 + n1 * v1 + n2 * v2) - v0 * (n0 * u0 + n1 * u1 + n2 * u2)) by ring.
  assert (E2 : n2 * (u1 * v2 - u2 * v1) - n0 * (u0 * v1 - u1 * v0) = u1 * (n0 * v0 + n1 * v1 + n2 * v2) - v1 * (n0 * u0 + n1 * u1 + n2 * u2)) by ring.
  rewrite Hu, Hv in E0, E1, E2. lra.
Qed.
(** A triangle that is not degenerate stays so. *)
Lemma turn_triang n d a b c : n <> o3 -> dot3 n a = d -> dot3 n b = d -> dot3 n c = d -> cross3 (sub3 b a) (sub3 c a) <> o3 -> triang d (map (turn n) [a; b; c]).
Proof.
  intros N Ha Hb Hc X. exists (turn n a), (turn n b), (turn n c). rewrite !turn_height. repeat (split; [first [reflexivity|assumption]|]).
  intros Z. apply X. revert N Ha Hb Hc Z. destruct n as [[n0 n1] n2], a as [[a0 a1] a2], b as [[b0 b1] b2], c as [[d0 d1] d2]. intros N. pose proof (nonzero3 n0 n1 n2 N) as Na.
  unfold turn, D. cbn [dot3 cross3 sub3]. intros Ha Hb Hc.
  assert (Eb : n0 * (b0 - a0) + n1 * (b1 - a1) + n2 * (b2 - a2) = 0) by lra. assert (Ec : n0 * (d0 - a0) + n1 * (d1 - a1) + n2 * (d2 - a2) = 0) by lra. clear Ha Hb Hc N.
  destruct (perp_cross _ _ _ _ _ _ _ _ _ Eb Ec) as (P0 & P1 & P2).
  destruct (Req_EM_T n2 0) as [E2|N2]; [destruct (Req_EM_T n1 0) as [E1|N1]|]; cbn; intros Z.
  - subst. specialize (Na eq_refl eq_refl). assert (b0 = a0) as -> by (apply (Rmult_eq_reg_l n0); lra). assert (d0 = a0) as -> by (apply (Rmult_eq_reg_l n0); lra). unfold o3. apply f_equal2; [apply f_equal2|]; lra.
  - assert (C : (b2 - a2) * (d0 - a0) - (b0 - a0) * (d2 - a2) = 0) by lra. rewrite C in P0, P1. unfold o3. apply f_equal2; [apply f_equal2|]; [|exact C|]; apply (Rmult_eq_reg_l n1); try assumption; lra.
  - assert (C : (b0 - a0) * (d1 - a1) - (b1 - a1) * (d0 - a0) = 0) by lra. rewrite C in P1, P2. unfold o3. apply f_equal2; [apply f_equal2|]; [| |exact C]; apply (Rmult_eq_reg_l n2); try assumption; lra.
Qed.

Section Flat.
Variables (n : R3) (d : R).
Hypothesis N : n <> o3.
Variable ts : list (list R3).
Definition tri_in (t : list R3) : Prop := exists a b c, t = [a; b; c] /\ dot3 n a = d /\ dot3 n b = d /\ dot3 n c = d /\ cross3 (sub3 b a) (sub3 c a) <> o3.
Hypothesis T : Forall tri_in ts.
Hypothesis EE : edge_to_edge ts.
Let us := map (map (turn n)) ts.
Lemma us_triang : Forall (triang d) us.
Proof. unfold us. apply Forall_map. eapply Forall_impl; [|exact T]. intros t (a & b & c & -> & Ha & Hb & Hc & X). apply turn_triang; assumption. Qed.
Lemma in_turn x t : In (turn n x) (map (turn n) t) <-> In x t.
Proof. split; [|apply in_map]. intros H. apply in_map_iff in H as (y & E & H). apply turn_inj in E; [subst; exact H|exact N]. Qed.
Lemma us_ee : edge_to_edge us.
Proof.
  intros i j t u Et Eu Nij. unfold us in *. rewrite nth_error_map in Et, Eu. destruct (nth_error ts i) as [t'|] eqn:Ei; [|discriminate]. destruct (nth_error ts j) as [u'|] eqn:Ej; [|discriminate].
  injection Et as <-. injection Eu as <-. destruct (EE i j t' u' Ei Ej Nij) as (Ns & Meet). split.
  - intros S. apply Ns. intros x. rewrite <- (in_turn x t'), <- (in_turn x u'). apply S.
  - intros x Hx Hy. destruct (turn_surj n x N) as (x' & <-). rewrite turn_hull in Hx, Hy by exact N. destruct (Meet x' Hx Hy) as (ps & I1 & I2 & H). exists (map (turn n) ps).
    split; [intros z Hz; apply in_map_iff in Hz as (w & <- & Hw); apply in_map, I1, Hw|]. split; [intros z Hz; apply in_map_iff in Hz as (w & <- & Hw); apply in_map, I2, Hw|]. apply turn_hull; assumption.
Qed.
Lemma reg_turn x : reg us (turn n x) <-> reg ts x.
Proof.
  unfold us, reg. split.
  - intros (t & Ht & Hx). apply in_map_iff in Ht as (t' & <- & Ht). exists t'. split; [exact Ht|]. apply turn_hull in Hx; assumption.
  - intros (t & Ht & Hx). exists (map (turn n) t). split; [apply in_map, Ht|]. apply turn_hull; assumption.
Qed.
Lemma lone_turn p q : lone us (turn n p) (turn n q) <-> lone ts p q.
Proof.
  unfold us, lone. split.
  - intros (i & t & Ei & Hp & Hq & Npq & Only). rewrite nth_error_map in Ei. destruct (nth_error ts i) as [t'|] eqn:Et; [|discriminate]. injection Ei as <-. rewrite in_turn in Hp, Hq.
    exists i, t'. split; [exact Et|]. split; [exact Hp|]. split; [exact Hq|]. split; [congruence|]. intros j u Ej Hu Hv. apply (Only j (map (turn n) u)); [rewrite nth_error_map, Ej; reflexivity| |]; apply in_map; assumption.
  - intros (i & t & Ei & Hp & Hq & Npq & Only). exists i, (map (turn n) t). split; [rewrite nth_error_map, Ei; reflexivity|]. split; [apply in_map, Hp|]. split; [apply in_map, Hq|].
    split; [intros E; apply Npq, (turn_inj n _ _ N E)|]. intros j u Ej Hu Hv. rewrite nth_error_map in Ej. destruct (nth_error ts j) as [u'|] eqn:Eu; [|discriminate]. injection Ej as <-. rewrite in_turn in Hu, Hv. exact (Only j u' Eu Hu Hv).
Qed.
Lemma lone_back p q : lone us p q -> exists p' q', p = turn n p' /\ q = turn n q' /\ lone ts p' q'.
Proof.
  intros H. destruct (turn_surj n p N) as (p' & <-). destruct (turn_surj n q N) as (q' & <-). exists p', q'. repeat (split; [reflexivity|]). apply lone_turn, H.
Qed.
Lemma edges_turn x : (exists p q, lone us p q /\ hull [p; q] (turn n x)) <-> exists p q, lone ts p q /\ hull [p; q] x.
Proof.
  split.
  - intros (p & q & L & H). destruct (lone_back p q L) as (p' & q' & -> & -> & L'). exists p', q'. split; [exact L'|]. apply (turn_hull n [p'; q'] x N). exact H.
  - intros (p & q & L & H). exists (turn n p), (turn n q). split; [apply lone_turn, L|]. apply (turn_hull n [p; q] x N). exact H.
Qed.
Theorem plane_frontier x : boundary_in n d (reg ts) x <-> exists p q, lone ts p q /\ hull [p; q] x.
Proof. rewrite <- (turn_boundary n d (reg ts) (reg us) x N reg_turn), (frontier d us us_triang us_ee), edges_turn. tauto. Qed.
Lemma plane_lone_exists : ts <> [] -> exists p q, lone ts p q.
Proof.
  intros Ne. destruct (lone_exists d us us_triang us_ee) as (p & q & L); [unfold us; destruct ts; [contradiction|discriminate]|]. destruct (lone_back p q L) as (p' & q' & _ & _ & L'). eauto.
Qed.
Lemma plane_between x : reg ts x -> exists b1 b2, (exists p q, lone ts p q /\ hull [p; q] b1) /\ (exists p q, lone ts p q /\ hull [p; q] b2) /\ hull [b1; b2] x.
Proof.
  intros H. apply reg_turn in H. destruct (reg_between d us us_triang us_ee _ H) as (b1 & b2 & H1 & H2 & Hb). destruct (turn_surj n b1 N) as (c1 & <-). destruct (turn_surj n b2 N) as (c2 & <-).
  exists c1, c2. split; [apply edges_turn, H1|]. split; [apply edges_turn, H2|]. apply (turn_hull n [c1; c2] x N). exact Hb.
Qed.
End Flat.
