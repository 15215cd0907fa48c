(** The remaining numerical tests of ico2/numericalc.py and dode2/numericalc.py in exact
    real arithmetic ([Rnum]): C76, C77, C78, C81. *)
From Coq Require Import Reals List ZArith Lia Lra Bool.
From Verif Require Import Base.Res Model.Tau Model.Arr Model.Num Model.IcoMath1 Model.IcoVolume Model.IcoNumeric Model.DodeMath1 Model.DodeArea Model.DodeNumeric Model.DodeIntersect Model.Numeric2
  Spec.Value Spec.RVec Spec.Shape Spec.IcoSpec Spec.DodeSpec Spec.Sets Spec.Space Spec.Plane Spec.Samples Spec.DodeSamples.
Import ListNotations.
Local Open Scope R_scope.

From Verif Require Import Spec.Geometry Proofs.ResLemmas Proofs.ScalarLemmas Proofs.ValueLemmas Proofs.VectorLemmas Proofs.RVecLemmas Proofs.IcoProj Proofs.DodeProj Proofs.IcoVolumeLemmas Proofs.DodeAreaLemmas
  Proofs.NumLemmas Proofs.CoplanarLemmas Proofs.IntersectLemmas Proofs.PlaneLemmas Proofs.Polytope.

(** ** Area vectors *)
Lemma tri_area_sum p a b c : tri_area a b c <= tri_area p b c + tri_area a p c + tri_area a b p.
Proof.
  unfold tri_area. replace (cross3 (sub3 b a) (sub3 c a)) with (add3 (add3 (cross3 (sub3 b p) (sub3 c p)) (cross3 (sub3 p a) (sub3 c a))) (cross3 (sub3 b a) (sub3 p a)))
    by (p3 p; p3 a; p3 b; p3 c; cbn; eq3; ring).
  pose proof (norm3_triangle (add3 (cross3 (sub3 b p) (sub3 c p)) (cross3 (sub3 p a) (sub3 c a))) (cross3 (sub3 b a) (sub3 p a))).
  pose proof (norm3_triangle (cross3 (sub3 b p) (sub3 c p)) (cross3 (sub3 p a) (sub3 c a))). lra.
Qed.
Lemma on_surface_R p a b c : on_surface Rnum p a b c = true <-> tri_area p b c + tri_area a p c + tri_area a b p < tri_area a b c + 1/1000000.
Proof.
  unfold on_surface. rewrite !area3_R. pose proof (tri_area_sum p a b c) as T. toR. rewrite Rltb_true. rewrite Rabs_left1 by lra. split; lra.
Qed.
Lemma norm3_abs k p : norm3 (scale3 k p) = Rabs k * norm3 p.
Proof.
  unfold Rabs. destruct (Rcase_abs k) as [N|N]; [|apply norm3_scale; lra].
  rewrite <- norm3_scale by lra. unfold norm3. f_equal. p3 p. cbn. ring.
Qed.
Lemma bary_areas w0 w1 w2 a b c p : bary [w0; w1; w2] [a; b; c] p ->
  tri_area p b c = Rabs w0 * tri_area a b c /\ tri_area a p c = Rabs w1 * tri_area a b c /\ tri_area a b p = Rabs w2 * tri_area a b c.
Proof.
  intros (_ & S & E). unfold Rsum in S. cbn [fold_right] in S. assert (w0 = 1 - w1 - w2) by lra. subst w0 p. unfold tri_area. unfold Rdiv.
  rewrite <- !Rmult_assoc, <- !norm3_abs. split; [|split]; do 2 f_equal; p3 a; p3 b; p3 c; unfold o3; cbn; eq3; ring.
Qed.

(** C76: the test of whether a point lies on a triangle compares areas: it answers True
    exactly if the three triangles formed with the point exceed the triangle by less than
    1e-6 in area.  It never raises on 6-d points, in any arithmetic. *)
Lemma L_C76_iff : forall v a b c, goods 6 [v; a; b; c] ->
  (on_out_surface Rnum v [a; b; c] = Ok true <->
   tri_area (pp v) (pp b) (pp c) + tri_area (pp a) (pp v) (pp c) + tri_area (pp a) (pp b) (pp v) < tri_area (pp a) (pp b) (pp c) + 1/1000000) /\
  (don_out_surface Rnum v [a; b; c] = Ok true <->
   tri_area (dp v) (dp b) (dp c) + tri_area (dp a) (dp v) (dp c) + tri_area (dp a) (dp b) (dp v) < tri_area (dp a) (dp b) (dp c) + 1/1000000).
Proof.
  intros v a b c G. apply goods_l6 in G. inversion G as [|? ? Gv Gt]; subst. unfold on_out_surface, don_out_surface.
  rewrite internal_R, dinternal_R by exact Gv. cbn [bind]. rewrite internals_R, dinternals_R by exact Gt. cbn [bind map get nth_error].
  rewrite <- !on_surface_R. split; (split; [intros H; injection H as H; exact H|intros ->; reflexivity]).
Qed.
Lemma L_C76_total : forall N v a b c, goods 6 [v; a; b; c] ->
  (exists r, on_out_surface N v [a; b; c] = Ok r) /\ (exists r, don_out_surface N v [a; b; c] = Ok r).
Proof.
  intros N v a b c G. apply goods_l6 in G.
  assert (K : forall u, In u [v; a; b; c] -> (exists r, internal N u = Ok r) /\ (exists r, dinternal N u = Ok r)).
  { intros u I. rewrite Forall_forall in G. specialize (G u I). cbv beta in G. destruct u as [|u0 [|u1 [|u2 [|u3 [|u4 [|u5 [|]]]]]]]; try discriminate G.
    split; eexists; reflexivity. }
  destruct (K v) as ((rv & Ev) & (sv & Fv)); [cbn; tauto|]. destruct (K a) as ((ra & Ea) & (sa & Fa)); [cbn; tauto|].
  destruct (K b) as ((rb & Eb) & (sb & Fb)); [cbn; tauto|]. destruct (K c) as ((rc & Ec) & (sc & Fc)); [cbn; tauto|].
  unfold on_out_surface, don_out_surface, internals, dinternals. cbn [mapM]. rewrite Ev, Ea, Eb, Ec, Fv, Fa, Fb, Fc. cbn. split; eauto.
Qed.

(** Every point of the closed triangle passes, degenerate triangles included. *)
Lemma L_C76_closed_triangle : forall v a b c, goods 6 [v; a; b; c] ->
  (hull (map pp [a; b; c]) (pp v) -> on_out_surface Rnum v [a; b; c] = Ok true) /\
  (hull (map dp [a; b; c]) (dp v) -> don_out_surface Rnum v [a; b; c] = Ok true).
Proof.
  intros v a b c G. destruct (L_C76_iff v a b c G) as [I D].
  assert (K : forall x y z p, hull [x; y; z] p -> tri_area p y z + tri_area x p z + tri_area x y p < tri_area x y z + 1/1000000).
  { intros x y z p (ws & B & P). destruct (bary3 _ _ _ _ _ B) as (w0 & w1 & w2 & -> & E). destruct (bary_areas _ _ _ _ _ _ _ B) as (-> & -> & ->).
    inversion P as [|? ? P0 P']; subst. inversion P' as [|? ? P1 P'']; subst. inversion P'' as [|? ? P2 _]; subst. rewrite !Rabs_pos_eq by lra.
    match goal with |- ?l < _ => replace l with (tri_area x y z) by ring end. lra. }
  split; intros H; [apply I|apply D]; apply K, H.
Qed.

(** A point of the plane of the triangle with barycentric coordinates ws passes exactly if
    the sum of their absolute values exceeds 1 by less than 1e-6 divided by the area: an
    absolute tolerance. *)
Lemma L_C76_plane : forall v a b c ws, goods 6 [v; a; b; c] ->
  (bary ws (map pp [a; b; c]) (pp v) ->
   (on_out_surface Rnum v [a; b; c] = Ok true <-> (Rsum (map Rabs ws) - 1) * tri_area (pp a) (pp b) (pp c) < 1/1000000)) /\
  (bary ws (map dp [a; b; c]) (dp v) ->
   (don_out_surface Rnum v [a; b; c] = Ok true <-> (Rsum (map Rabs ws) - 1) * tri_area (dp a) (dp b) (dp c) < 1/1000000)).
Proof.
  intros v a b c ws G. destruct (L_C76_iff v a b c G) as [I D].
  split; intros B; cbn [map] in B; destruct (bary3 _ _ _ _ _ B) as (w0 & w1 & w2 & -> & E);
    [rewrite I|rewrite D]; destruct (bary_areas _ _ _ _ _ _ _ B) as (-> & -> & ->); unfold Rsum; cbn [map fold_right]; split; intros H; lra.
Qed.

(** A point that passes is close to the plane of the triangle: its distance h from it
    satisfies (h P / 2)^2 < 2 S e + e^2, with P the perimeter, S the area, e = 1e-6. *)
Lemma height_bound p a b c n : norm3 n = 1 -> dot3 n (sub3 b a) = 0 -> dot3 n (sub3 c a) = 0 ->
  tri_area p b c + tri_area a p c + tri_area a b p < tri_area a b c + 1/1000000 ->
  let h := dot3 n (sub3 p a) in let P := dist3 b c + dist3 c a + dist3 a b in let S := tri_area a b c in
  (h * P / 2) * (h * P / 2) < 2 * S * (1/1000000) + (1/1000000) * (1/1000000).
Proof.
  intros N Hb Hc H h P S.
  assert (N1 : dot3 n n = 1) by (rewrite <- norm3_sq, N; ring).
  (* Lagrange *)
  assert (Lag : forall X, dot3 X X = dot3 n X * dot3 n X + dot3 (cross3 n X) (cross3 n X)).
  { intros X. transitivity (dot3 n n * dot3 X X); [rewrite N1; ring|]. clear. p3 n; p3 X. cbn. ring. }
  assert (K : forall u v k, cross3 n (cross3 u v) = scale3 h k -> norm3 (cross3 u v) = norm3 (dot3 n (cross3 u v), Rabs h * norm3 k, 0)).
  { intros u v k E. unfold norm3 at 1 2. f_equal. rewrite (Lag (cross3 u v)). rewrite E.
    assert (Z : forall t y, dot3 (t, y, 0) (t, y, 0) = t * t + y * y) by (intros; cbn; ring). rewrite Z. f_equal.
    replace (Rabs h * norm3 k * (Rabs h * norm3 k)) with ((Rabs h * Rabs h) * (norm3 k * norm3 k)) by ring. rewrite norm3_sq.
    replace (Rabs h * Rabs h) with (h * h) by (rewrite <- Rabs_mult, Rabs_pos_eq; [ring|apply Rle_0_sqr]). p3 k. cbn. ring. }
  (* a x (b x c) = b (a.c) - c (a.b) *)
  assert (BAC : forall u v, cross3 n (cross3 u v) = sub3 (scale3 (dot3 n v) u) (scale3 (dot3 n u) v)) by (intros u v; clear; p3 n; p3 u; p3 v; cbn; eq3; ring).
  assert (D1 : dot3 n (sub3 b p) = - h) by (unfold h; clear - Hb; p3 n; p3 a; p3 b; p3 p; cbn in *; lra).
  assert (D2 : dot3 n (sub3 c p) = - h) by (unfold h; clear - Hc; p3 n; p3 a; p3 c; p3 p; cbn in *; lra).
  pose proof (K (sub3 b p) (sub3 c p) (sub3 c b)) as K1. pose proof (K (sub3 p a) (sub3 c a) (sub3 a c)) as K2. pose proof (K (sub3 b a) (sub3 p a) (sub3 b a)) as K3.
  rewrite BAC, D1, D2 in K1. rewrite BAC, Hc in K2. rewrite BAC, Hb in K3. fold h in K2, K3.
  specialize (K1 ltac:(generalize h; clear; intros k; repeat match goal with x : R3 |- _ => p3 x end; cbn; eq3; ring)).
  specialize (K2 ltac:(generalize h; clear; intros k; repeat match goal with x : R3 |- _ => p3 x end; cbn; eq3; ring)).
  specialize (K3 ltac:(generalize h; clear; intros k; repeat match goal with x : R3 |- _ => p3 x end; cbn; eq3; ring)).
  set (d1 := dot3 n (cross3 (sub3 b p) (sub3 c p))) in *. set (d2 := dot3 n (cross3 (sub3 p a) (sub3 c a))) in *. set (d3 := dot3 n (cross3 (sub3 b a) (sub3 p a))) in *.
  assert (Sum : d1 + d2 + d3 = dot3 n (cross3 (sub3 b a) (sub3 c a))) by (unfold d1, d2, d3; clear; p3 n; p3 a; p3 b; p3 c; p3 p; cbn; ring).
  assert (Area : (2 * S) * (2 * S) = dot3 n (cross3 (sub3 b a) (sub3 c a)) * dot3 n (cross3 (sub3 b a) (sub3 c a))).
  { unfold S, tri_area. replace (2 * (norm3 (cross3 (sub3 b a) (sub3 c a)) / 2) * (2 * (norm3 (cross3 (sub3 b a) (sub3 c a)) / 2))) with (norm3 (cross3 (sub3 b a) (sub3 c a)) * norm3 (cross3 (sub3 b a) (sub3 c a))) by field.
    rewrite norm3_sq, Lag, BAC, Hb, Hc. clear. p3 a; p3 b; p3 c. cbn. ring. }
  assert (P1 : norm3 (sub3 c b) = dist3 b c) by (rewrite dist3_sym; reflexivity). assert (P2 : norm3 (sub3 a c) = dist3 c a) by (rewrite dist3_sym; reflexivity).
  assert (P3 : norm3 (sub3 b a) = dist3 a b) by (rewrite dist3_sym; reflexivity). rewrite P1 in K1. rewrite P2 in K2. rewrite P3 in K3.
  pose proof (norm3_triangle (d1, Rabs h * dist3 b c, 0) (d2, Rabs h * dist3 c a, 0)) as T1.
  pose proof (norm3_triangle (add3 (d1, Rabs h * dist3 b c, 0) (d2, Rabs h * dist3 c a, 0)) (d3, Rabs h * dist3 a b, 0)) as T2.
  set (V := add3 (add3 (d1, Rabs h * dist3 b c, 0) (d2, Rabs h * dist3 c a, 0)) (d3, Rabs h * dist3 a b, 0)) in *.
  assert (NV : norm3 V * norm3 V = (2 * S) * (2 * S) + (h * P) * (h * P)).
  { rewrite norm3_sq, Area, <- Sum. unfold V, P. cbn.
    transitivity ((d1 + d2 + d3) * (d1 + d2 + d3) + (Rabs h * Rabs h) * ((dist3 b c + dist3 c a + dist3 a b) * (dist3 b c + dist3 c a + dist3 a b))); [ring|].
    replace (Rabs h * Rabs h) with (h * h) by (rewrite <- Rabs_mult, Rabs_pos_eq; [ring|apply Rle_0_sqr]). ring. }
  unfold tri_area in H. rewrite K1, K2, K3 in H. fold (tri_area a b c) in H. fold S in H.
  assert (B : norm3 V < 2 * (S + 1/1000000)) by lra. pose proof (norm3_pos V) as PV.
  assert (Q : norm3 V * norm3 V < (2 * (S + 1/1000000)) * (2 * (S + 1/1000000))) by (apply Rmult_le_0_lt_compat; lra). lra.
Qed.
Lemma L_C76_height : forall v a b c n, goods 6 [v; a; b; c] -> norm3 n = 1 ->
  let bound := fun p a b c => dot3 n (sub3 b a) = 0 -> dot3 n (sub3 c a) = 0 ->
    let h := dot3 n (sub3 p a) in let P := dist3 b c + dist3 c a + dist3 a b in let S := tri_area a b c in
    (h * P / 2) * (h * P / 2) < 2 * S * (1/1000000) + (1/1000000) * (1/1000000) in
  (on_out_surface Rnum v [a; b; c] = Ok true -> bound (pp v) (pp a) (pp b) (pp c)) /\
  (don_out_surface Rnum v [a; b; c] = Ok true -> bound (dp v) (dp a) (dp b) (dp c)).
Proof.
  intros v a b c n G N bound. destruct (L_C76_iff v a b c G) as [I D]. split; intros H Hb Hc; apply height_bound; try assumption; [apply I|apply D]; exact H.
Qed.

Lemma ddp_pl x y : dp (pl x y) = (val SIN x, val SIN y, 0).
Proof.
  unfold pl, dp, dppoint. cbn. unfold dot. cbn. generalize (val SIN x), (val SIN y). intros u v. unfold val. cbn. apply f_equal2; [apply f_equal2|]; field.
Qed.
(** So a small triangle accepts points far outside: here the point has barycentric
    coordinates -999, 1000, 0. *)
Lemma L_C76_small_refuted : exists v a b c, goods 6 [v; a; b; c] /\ ~ flat3 (dp a) (dp b) (dp c) /\ level 0 [v; a; b; c] /\
  bary [-999; 1000; 0] (map dp [a; b; c]) (dp v) /\ don_out_surface Rnum v [a; b; c] = Ok true.
Proof.
  exists (pl (T 1 0 1000) (T 0 0 1)), (pl (T 0 0 1) (T 0 0 1)), (pl (T 1 0 1000000) (T 0 0 1)), (pl (T 0 0 1) (T 1 0 1000000)).
  assert (G : goods 6 [pl (T 1 0 1000) (T 0 0 1); pl (T 0 0 1) (T 0 0 1); pl (T 1 0 1000000) (T 0 0 1); pl (T 0 0 1) (T 1 0 1000000)]).
  { unfold goods, good, wfv, wf; cbn; repeat (apply Forall_cons || apply Forall_nil || split || discriminate || reflexivity). }
  assert (B : bary [-999; 1000; 0] (map dp [pl (T 0 0 1) (T 0 0 1); pl (T 1 0 1000000) (T 0 0 1); pl (T 0 0 1) (T 1 0 1000000)]) (dp (pl (T 1 0 1000) (T 0 0 1)))).
  { cbn [map]. rewrite !ddp_pl. split; [reflexivity|]. split; [unfold Rsum; cbn; lra|]. unfold val, comb, o3. cbn. eq3; field. }
  split; [exact G|]. split; [rewrite !ddp_pl; unfold flat3, val; cbn; lra|]. split; [repeat (apply Forall_cons; [rewrite ddp_pl; reflexivity|]); constructor|].
  split; [exact B|]. apply (proj2 (L_C76_plane _ _ _ _ _ G) B). rewrite (tri_area_flat 0) by (rewrite ddp_pl; reflexivity).
  rewrite !ddp_pl. unfold Rsum, val. cbn. match goal with |- context [Rabs ?e / 2] => replace e with (1/1000000000000) by field end.
  rewrite (Rabs_left (-999)) by lra. rewrite (Rabs_pos_eq 1000), (Rabs_pos_eq 0), (Rabs_pos_eq (1/1000000000000)) by lra. lra.
Qed.
Lemma sqrt_le_lin x y : 0 <= y -> x <= y * y -> sqrt x <= y.
Proof. intros Y H. apply Rle_trans with (sqrt (y * y)); [apply sqrt_le_1_alt, H|]. rewrite sqrt_square by exact Y. apply Rle_refl. Qed.
Definition upq : vec := [T 0 0 1; T 1 0 4; T 1 0 4; T 0 0 1; T 0 0 1; T 1 0 2000].
Lemma dp_upq : dp upq = (1/4, 1/4, 1/2000).
Proof. unfold upq, dp, dppoint. cbn. unfold dot, val. cbn. eq3; field. Qed.
Lemma dpo6 : dp o6 = (0, 0, 0).
Proof. unfold o6, iv, dp, dppoint. cbn. unfold dot, val. cbn. eq3; field. Qed.
Lemma dpx2 : dp x2 = (1, 0, 0).
Proof. unfold x2, iv, dp, dppoint. cbn. unfold dot, val. cbn. eq3; field. Qed.
Lemma dpx3 : dp x3 = (0, 1, 0).
Proof. unfold x3, iv, dp, dppoint. cbn. unfold dot, val. cbn. eq3; field. Qed.
Ltac gds := unfold goods, good, wfv, wf; cbn; repeat (apply Forall_cons || apply Forall_nil || split || discriminate || reflexivity).
(** ... and a triangle of ordinary size accepts points well off its plane: with the
    triangle (0,0), (1,0), (0,1) and 1e-6 in area the point may be 5e-4 away. *)
Lemma L_C76_off_plane_refuted : exists v a b c n, goods 6 [v; a; b; c] /\ dp a = (0,0,0) /\ dp b = (1,0,0) /\ dp c = (0,1,0) /\
  norm3 n = 1 /\ dot3 n (sub3 (dp b) (dp a)) = 0 /\ dot3 n (sub3 (dp c) (dp a)) = 0 /\ dot3 n (sub3 (dp v) (dp a)) = 5/10000 /\
  don_out_surface Rnum v [a; b; c] = Ok true.
Proof.
  exists upq, o6, x2, x3, (0, 0, 1). assert (G : goods 6 [upq; o6; x2; x3]) by gds.
  split; [exact G|]. split; [exact dpo6|]. split; [exact dpx2|]. split; [exact dpx3|].
  split; [unfold norm3; cbn; replace (0*0+0*0+1*1) with 1 by ring; apply sqrt_1|].
  split; [rewrite dpo6, dpx2; cbn; ring|]. split; [rewrite dpo6, dpx3; cbn; ring|]. split; [rewrite dpo6, dp_upq; cbn; lra|].
  apply (L_C76_iff _ _ _ _ G). rewrite dpo6, dpx2, dpx3, dp_upq. rewrite (tri_area_flat 0 (0,0,0) (1,0,0) (0,1,0)) by reflexivity. unfold tri_area, norm3. cbn.
  match goal with |- sqrt ?a / 2 + sqrt ?b / 2 + sqrt ?c / 2 < Rabs ?d / 2 + _ =>
    assert (A : sqrt a <= 1/2 + 2/4000000) by (apply sqrt_le_lin; lra); assert (B : sqrt b <= 1/4 + 2/4000000) by (apply sqrt_le_lin; lra);
    assert (C : sqrt c <= 1/4 + 2/4000000) by (apply sqrt_le_lin; lra); replace d with 1 by ring end.
  rewrite Rabs_R1. lra.
Qed.
Example E_C76_ex : goods 6 [q 1 1; o6; x2; x3] /\ hull (map dp [o6; x2; x3]) (dp (q 1 1)) /\
  on_out_surface Bnum x1 [x1; x2; x4] = Ok true /\ on_out_surface Bnum x3 [x1; x2; x4] = Ok false /\
  don_out_surface Bnum (q 1 1) triA = Ok true /\ don_out_surface Bnum (q 1 5) triA = Ok false.
Proof.
  split; [gds|]. split.
  - exists [1/2; 1/4; 1/4]. split; [|repeat (apply Forall_cons; [lra|]); constructor]. split; [reflexivity|]. split; [unfold Rsum; cbn; lra|].
    cbn [map]. unfold q. rewrite dpo6, dpx2, dpx3, ddp_pl. unfold val, o3. cbn. eq3; field.
  - split; [vm_cast_no_check (eq_refl (@Ok bool true))|]. split; [vm_cast_no_check (eq_refl (@Ok bool false))|].
    split; [vm_cast_no_check (eq_refl (@Ok bool true))|]. vm_cast_no_check (eq_refl (@Ok bool false)).
Qed.

(** C77: the point-on-segment test.  Both packages apply one test to the perpendicular
    projections. *)
Lemma L_C77_tau : forall v a b, goods 6 [v; a; b] ->
  point_on_segment Rnum v [a; b] = Ok (on_segment Rnum (pp v) (pp a) (pp b)) /\
  dpoint_on_segment Rnum v [a; b] = Ok (on_segment Rnum (dp v) (dp a) (dp b)).
Proof.
  intros v a b G. apply goods_l6 in G. inversion G as [|? ? Gv Gt]; subst. unfold point_on_segment, dpoint_on_segment.
  rewrite internal_R, dinternal_R by exact Gv. cbn [bind]. rewrite internals_R, dinternals_R by exact Gt. split; reflexivity.
Qed.
Lemma on_segment_R p a b : on_segment Rnum p a b = true <->
  0 < dist3 b a /\ Rabs (dot3 (sub3 p a) (sub3 b a) - dist3 p a * dist3 b a) < 1/1000000 /\ dist3 p a <= dist3 b a.
Proof.
  unfold on_segment. toR. fold (dist3 p a) (dist3 b a). set (l := dist3 p a). set (L := dist3 b a).
  assert (l0 : 0 <= l) by apply norm3_pos. destruct (Rltb 0 L) eqn:E; cbn [andb].
  - apply Rltb_true in E. destruct (Rltb (Rabs _) _) eqn:E2.
    + apply Rltb_true in E2. rewrite andb_true_iff, !Rleb_true. split.
      * intros [_ H]. split; [exact E|]. split; [exact E2|]. apply (Rmult_le_compat_r L) in H; [|lra]. unfold Rdiv in H. rewrite Rmult_assoc, Rinv_l in H by lra. lra.
      * intros (_ & _ & H). split; [apply Rmult_le_pos; [exact l0|left; apply Rinv_0_lt_compat, E]|].
        apply (Rmult_le_reg_r L); [exact E|]. unfold Rdiv. rewrite Rmult_assoc, Rinv_l by lra. lra.
    + split; [discriminate|]. intros (_ & H & _). apply Rltb_true in H. rewrite H in E2. discriminate E2.
  - split; [discriminate|]. intros (H & _). apply Rltb_true in H. congruence.
Qed.
Lemma dist3_0 a b : dist3 a b = 0 -> a = b.
Proof.
  intros H. unfold dist3 in H. pose proof (norm3_sq (sub3 a b)) as S. rewrite H in S. p3 a; p3 b. cbn in S.
  pose proof (Rle_0_sqr (r - r2)). pose proof (Rle_0_sqr (r0 - r3)). pose proof (Rle_0_sqr (r1 - r4)). unfold Rsqr in *.
  eq3; apply Rminus_diag_uniq, Rsqr_0_uniq; unfold Rsqr; lra.
Qed.

(** On the line through a and b: exactly the points of the closed segment, and points
    before a at a distance d <= |ab| with 2 d |ab| < 1e-6. *)
Lemma L_C77_line : forall a b s, a <> b ->
  let p := add3 a (scale3 s (sub3 b a)) in
  on_segment Rnum p a b = true <-> 0 <= s <= 1 \/ (-1 <= s < 0 /\ 2 * dist3 p a * dist3 b a < 1/1000000).
Proof.
  intros a b s Ne p. rewrite on_segment_R.
  assert (L0 : 0 < dist3 b a).
  { pose proof (norm3_pos (sub3 b a)) as H. destruct H as [H|H]; [exact H|]. exfalso. apply Ne. symmetry. apply dist3_0. symmetry. exact H. }
  assert (E : dist3 p a = Rabs s * dist3 b a) by (unfold dist3; rewrite <- norm3_abs; f_equal; unfold p; p3 a; p3 b; cbn; eq3; ring).
  assert (D : dot3 (sub3 p a) (sub3 b a) = s * (dist3 b a * dist3 b a)) by (unfold dist3; rewrite norm3_sq; unfold p; p3 a; p3 b; cbn; ring).
  rewrite E, D. set (L := dist3 b a) in *. assert (LL : 0 < L * L) by (apply Rmult_lt_0_compat; exact L0).
  replace (s * (L * L) - Rabs s * L * L) with ((s - Rabs s) * (L * L)) by ring. rewrite Rabs_mult, (Rabs_pos_eq (L * L)) by lra.
  assert (Le : Rabs s * L <= L <-> Rabs s <= 1).
  { split; intros H; [apply (Rmult_le_reg_r L); lra|]. replace L with (1 * L) at 2 by ring. apply Rmult_le_compat_r; lra. }
  destruct (Rle_dec 0 s) as [P|P].
  - rewrite (Rabs_pos_eq s) in * by exact P. replace (s - s) with 0 by ring. rewrite Rabs_R0, Rmult_0_l. split; [intros (_ & _ & H); left; lra|].
    intros [H|H]; [|lra]. split; [exact L0|]. split; [lra|]. apply Le. lra.
  - assert (N : s < 0) by lra. rewrite (Rabs_left s) in * by exact N. replace (s - - s) with (2 * s) by ring. rewrite (Rabs_left (2 * s)) by lra.
    replace (- (2 * s) * (L * L)) with (2 * (- s * L) * L) by ring. split.
    + intros (_ & H & K). right. split; [|exact H]. apply Le in K. lra.
    + intros [H|[H K]]; [lra|]. split; [exact L0|]. split; [exact K|]. apply Le. lra.
Qed.
Lemma L_C77_closed_segment : forall a b p, a <> b -> hull [a; b] p -> on_segment Rnum p a b = true.
Proof.
  intros a b p Ne (ws & (L & S & E) & P). destruct ws as [|w0 [|w1 [|]]]; try discriminate L. unfold Rsum in S. cbn [fold_right] in S.
  inversion P as [|? ? P0 P']; subst. inversion P' as [|? ? P1 _]; subst. 
  replace (comb [w0; w1] [a; b]) with (add3 a (scale3 w1 (sub3 b a))); [apply L_C77_line; [exact Ne|left; lra]|].
  assert (w0 = 1 - w1) by lra. subst w0. p3 a; p3 b. unfold o3. cbn. eq3; ring.
Qed.
Lemma L_C77_degenerate : forall a p, on_segment Rnum p a a = false.
Proof.
  intros a p. apply not_true_iff_false. rewrite on_segment_R. intros (H & _). assert (Z : dist3 a a = 0) by (unfold dist3; replace (sub3 a a) with o3; [apply norm3_o3|p3 a; unfold o3; cbn; eq3; ring]). lra.
Qed.
(** Whatever passes lies within sqrt(2e-6) of the segment, and no farther from a than b is. *)
Lemma L_C77_near : forall a b p, on_segment Rnum p a b = true ->
  a <> b /\ dist3 p a <= dist3 b a /\ exists x, hull [a; b] x /\ dist3 p x * dist3 p x < 2/1000000.
Proof.
  intros a b p H. apply on_segment_R in H as (L0 & H & Le). split.
  { intros <-. assert (Z : dist3 a a = 0) by (unfold dist3; replace (sub3 a a) with o3; [apply norm3_o3|p3 a; unfold o3; cbn; eq3; ring]). lra. }
  split; [exact Le|]. set (l := dist3 p a) in *. set (L := dist3 b a) in *. assert (l0 : 0 <= l) by apply norm3_pos.
  set (k := l / L). assert (k0 : 0 <= k) by (apply Rmult_le_pos; [exact l0|left; apply Rinv_0_lt_compat, L0]).
  assert (kL : k * L = l) by (unfold k, Rdiv; rewrite Rmult_assoc, Rinv_l by lra; ring).
  assert (k1 : k <= 1) by (apply (Rmult_le_reg_r L); lra).
  exists (add3 a (scale3 k (sub3 b a))). split.
  - exists [1 - k; k]. split; [split; [reflexivity|split; [unfold Rsum; cbn; lra|p3 a; p3 b; unfold o3; cbn; eq3; ring]]|]. repeat (apply Forall_cons; [lra|]). constructor.
  - assert (E : dist3 p (add3 a (scale3 k (sub3 b a))) * dist3 p (add3 a (scale3 k (sub3 b a))) = l * l - 2 * k * dot3 (sub3 p a) (sub3 b a) + k * k * (L * L)).
    { unfold l, L, dist3. rewrite !norm3_sq. clear. generalize k. intros t. p3 a; p3 b; p3 p. cbn. ring. }
    rewrite E. replace (k * k * (L * L)) with (l * l) by (rewrite <- kL; ring). replace (l * l) with (k * (l * L)) by (rewrite <- kL; ring).
    set (d := dot3 (sub3 p a) (sub3 b a)) in *. apply Rabs_def2 in H as [_ H]. 
    replace (k * (l * L) - 2 * k * d + k * (l * L)) with (2 * k * (l * L - d)) by ring.
    assert (C : d <= l * L) by apply cauchy. assert (M : k * (l * L - d) <= 1 * (l * L - d)) by (apply Rmult_le_compat_r; lra). lra.
Qed.
(** The tolerance is not 1e-6 in distance: (0.999, 0.001) is accepted for the segment from
    (0,0) to (1,0), although it is more than 9e-4 away from all its points. *)
Lemma L_C77_tolerance_refuted : exists v a b, goods 6 [v; a; b] /\ dpoint_on_segment Rnum v [a; b] = Ok true /\
  forall x, hull (map dp [a; b]) x -> 9/10000 < dist3 (dp v) x.
Proof.
  exists (pl (T 999 0 1000) (T 1 0 1000)), o6, x2. assert (G : goods 6 [pl (T 999 0 1000) (T 1 0 1000); o6; x2]) by gds. split; [exact G|]. split.
  - rewrite (proj2 (L_C77_tau _ _ _ G)). f_equal. apply on_segment_R. rewrite dpo6, dpx2, ddp_pl.
    assert (E1 : dist3 (1, 0, 0) (0, 0, 0) = 1) by (unfold dist3, norm3; cbn; replace ((1-0)*(1-0)+(0-0)*(0-0)+(0-0)*(0-0)) with 1 by ring; apply sqrt_1).
    rewrite E1. unfold val. cbn [ta tb tc]. match goal with |- context [dist3 ?u ?w] => set (l := dist3 u w) end.
    assert (l0 : 0 <= l) by apply norm3_pos. assert (l2 : l * l = 998002/1000000) by (unfold l, dist3; rewrite norm3_sq; cbn; field).
    assert (U : l <= 999/1000 + 9/10000000) by (apply Rnot_lt_le; intros X; assert (K : (999/1000 + 9/10000000) * (999/1000 + 9/10000000) < l * l) by (apply Rmult_le_0_lt_compat; lra); lra).
    assert (W : 999/1000 <= l) by (apply Rnot_lt_le; intros X; assert (K : l * l < (999/1000) * (999/1000)) by (apply Rmult_le_0_lt_compat; lra); lra).
    split; [lra|]. split; [|lra]. cbn. apply Rabs_def1; lra.
  - intros x Hx. cbn [map] in Hx. rewrite dpo6, dpx2 in Hx. rewrite ddp_pl.
    assert (Y : exists u, x = (u, 0, 0)).
    { destruct Hx as (ws & (L & _ & E) & _). destruct ws as [|w0 [|w1 [|]]]; try discriminate L. exists w1. rewrite E. unfold o3. cbn. eq3; ring. }
    destruct Y as (u & ->). unfold val. cbn [ta tb tc]. match goal with |- _ < ?d => set (l := d) end. assert (l0 : 0 <= l) by apply norm3_pos.
    assert (l2 : (1/1000) * (1/1000) <= l * l).
    { unfold l, dist3. rewrite norm3_sq. cbn. match goal with |- _ <= ?a * ?a + ?b * ?b + ?c * ?c => pose proof (Rle_0_sqr a) as Q; unfold Rsqr in Q; replace b with (1/1000) by field; replace c with 0 by ring end. lra. }
    apply Rnot_le_lt. intros X. assert (K : l * l <= (9/10000) * (9/10000)) by (apply Rmult_le_compat; lra). lra.
Qed.
Example E_C77_ex : goods 6 [pl (T 1 0 2) (T 0 0 1); o6; x2] /\ dp o6 <> dp x2 /\ hull [dp o6; dp x2] (dp (pl (T 1 0 2) (T 0 0 1))) /\
  dpoint_on_segment Bnum (pl (T 1 0 2) (T 0 0 1)) [o6; x2] = Ok true /\ dpoint_on_segment Bnum (q 1 1) [o6; x2] = Ok false /\
  point_on_segment Bnum x1 [o6; iv [2;0;0;0;0;0]%Z] = Ok true /\ point_on_segment Bnum x2 [o6; x1] = Ok false.
Proof.
  split; [gds|]. rewrite dpo6, dpx2, ddp_pl. split; [intros E; injection E; lra|]. split.
  - exists [1/2; 1/2]. split; [|repeat (apply Forall_cons; [lra|]); constructor]. split; [reflexivity|]. split; [unfold Rsum; cbn; lra|]. unfold val, o3. cbn. eq3; field.
  - split; [vm_cast_no_check (eq_refl (@Ok bool true))|]. split; [vm_cast_no_check (eq_refl (@Ok bool false))|].
    split; [vm_cast_no_check (eq_refl (@Ok bool true))|]. vm_cast_no_check (eq_refl (@Ok bool false)).
Qed.

(** C78: the numerical projections, areas and volumes are the exact ones.  In exact
    arithmetic the floating-point versions return the number that the exact (TAU-style)
    result denotes. *)
Lemma L_C78_projection : forall v, good 6 v -> exists e i x y z x' y' z',
  projection v = Ok (e, i) /\ projection_numerical Rnum (numerical_vector Rnum v) = Ok ((x, y, z), (x', y', z')) /\
  vals TAU e = [x; y; z] /\ vals TAU i = [x'; y'; z'].
Proof.
  intros v G. pose proof (projection_spec v G) as S. destruct (wp_elim _ _ S) as ((e & i) & E & _ & _ & P & Q). cbn [fst snd] in P, Q.
  rewrite numerical_vector_R. destruct G as [_ L]. exists e, i.
  destruct v as [|v0 [|v1 [|v2 [|v3 [|v4 [|v5 [|]]]]]]]; try discriminate L. unfold vals in P, Q |- * at 1. cbn [map] in P, Q |- *.
  fold (vals TAU e) in P. fold (vals TAU i) in Q. rewrite E, P, Q.
  generalize (val TAU v0) (val TAU v1) (val TAU v2) (val TAU v3) (val TAU v4) (val TAU v5). intros y0 y1 y2 y3 y4 y5.
  unfold projection_numerical. cbn [get nth_error bind]. rewrite ftau_R. cbn [fadd fsub fmul fneg Rnum].
  do 6 eexists. split; [reflexivity|]. split; [reflexivity|]. unfold par, perp, matvec, dot. cbn. split; repeat (apply f_equal2; [ring|]); reflexivity.
Qed.
Lemma L_C78_dprojection : forall v, good 6 v -> exists e i x y z x' y' z',
  dprojection v = Ok (e, i) /\ dprojection_numerical Rnum (dnumerical_vector Rnum v) = Ok ((x, y, z), (x', y', z')) /\
  vals SIN e = [x; y; z] /\ vals SIN i = [x'; y'; z'].
Proof.
  intros v G. pose proof (dprojection_spec v G) as S. destruct (wp_elim _ _ S) as ((e & i) & E & _ & _ & P & Q). cbn [fst snd] in P, Q.
  rewrite dnumerical_vector_R. destruct G as [_ L]. exists e, i.
  destruct v as [|v0 [|v1 [|v2 [|v3 [|v4 [|v5 [|]]]]]]]; try discriminate L. unfold vals in P, Q |- * at 1. cbn [map] in P, Q |- *.
  fold (vals SIN e) in P. fold (vals SIN i) in Q. rewrite E, P, Q.
  generalize (val SIN v0) (val SIN v1) (val SIN v2) (val SIN v3) (val SIN v4) (val SIN v5). intros y0 y1 y2 y3 y4 y5.
  unfold dprojection_numerical. cbn [get nth_error bind]. rewrite fsin_R, half_R. cbn [fadd fsub fmul fneg Rnum].
  do 6 eexists. split; [reflexivity|]. split; [reflexivity|]. unfold dpar, dperp, matvec, dot. cbn. split; repeat (apply f_equal2; [lra|]); reflexivity.
Qed.
Lemma pp_perp v : good 6 v -> exists x y z, perp (vals TAU v) = [x; y; z] /\ pp v = (x, y, z).
Proof. intros [_ L]. unfold pp. destruct v as [|v0 [|v1 [|v2 [|v3 [|v4 [|v5 [|]]]]]]]; try discriminate L. unfold vals; cbn [map]. do 3 eexists. split; reflexivity. Qed.
Lemma dp_perp v : good 6 v -> exists x y z, dperp (vals SIN v) = [x; y; z] /\ dp v = (x, y, z).
Proof. intros [_ L]. unfold dp, dppoint. destruct v as [|v0 [|v1 [|v2 [|v3 [|v4 [|v5 [|]]]]]]]; try discriminate L. unfold vals; cbn [map]. do 3 eexists. split; reflexivity. Qed.
Lemma tet6_num t : length t = 4%nat -> goods 6 t -> tetrahedron_volume_6d_numerical Rnum t = Ok (pvol t).
Proof.
  intros L G. unfold tetrahedron_volume_6d_numerical. rewrite internals_R by (apply goods_l6, G). destruct t as [|a [|b [|c [|d [|]]]]]; try discriminate L.
  cbn [bind map]. unfold tetrahedron_volume_numerical. cbn [get nth_error bind]. apply f_equal. rewrite vol4_R. unfold pvol, vol3. cbn [map tetvol].
  inversion G as [|? ? Ga G1]; subst. inversion G1 as [|? ? Gb G2]; subst. inversion G2 as [|? ? Gc G3]; subst. inversion G3 as [|? ? Gd G4]; subst.
  destruct (pp_perp a Ga) as (? & ? & ? & -> & ->), (pp_perp b Gb) as (? & ? & ? & -> & ->), (pp_perp c Gc) as (? & ? & ? & -> & ->), (pp_perp d Gd) as (? & ? & ? & -> & ->).
  f_equal. f_equal. unfold det3, vsub. cbn. ring.
Qed.
Lemma tri6_num h t : length t = 3%nat -> goods 6 t -> level h t -> triangle_volume_6d_numerical Rnum t = Ok (parea t).
Proof.
  intros L G Lv. unfold triangle_volume_6d_numerical. rewrite dinternals_R by (apply goods_l6, G). destruct t as [|a [|b [|c [|]]]]; try discriminate L.
  cbn [bind map]. unfold triangle_area_numerical. cbn [get nth_error bind]. apply f_equal. rewrite area3_R.
  inversion Lv as [|? ? La L1]; subst. inversion L1 as [|? ? Lb L2]; subst. inversion L2 as [|? ? Lc L3]; subst.
  rewrite (tri_area_flat (height (dp a))) by (assumption || reflexivity). unfold parea, perp_plane. cbn [map].
  inversion G as [|? ? Ga G1]; subst. inversion G1 as [|? ? Gb G2]; subst. inversion G2 as [|? ? Gc G3]; subst.
  destruct (dp_perp a Ga) as (? & ? & ? & -> & ->), (dp_perp b Gb) as (? & ? & ? & -> & ->), (dp_perp c Gc) as (? & ? & ? & -> & ->). cbn. reflexivity.
Qed.
Lemma foldM_sum {A} (f : A -> res R) g (l : list A) s : (forall x, In x l -> f x = Ok (g x)) ->
  foldM (fun v t => w <- f t ;; Ok (v + w))%res s l = Ok (s + Rsum (map g l)).
Proof.
  revert s. induction l as [|x l IH]; intros s H; cbn [foldM map Rsum]; [f_equal; ring|].
  rewrite H by (left; reflexivity). cbn [bind]. rewrite IH by (intros; apply H; right; assumption). f_equal. ring.
Qed.
Lemma L_C78_volume : forall o, tets o -> exists v, obj_volume_6d (A4 o) = Ok (Some v) /\ obj_volume_6d_numerical Rnum o = Ok (val TAU v).
Proof.
  intros o T. destruct (wp_elim _ _ (obj_volume_spec o T)) as (r & E & v & -> & _ & V). exists v. split; [exact E|]. rewrite V.
  unfold obj_volume_6d_numerical. change (fadd Rnum) with Rplus. change (fZ Rnum 0) with 0. rewrite (foldM_sum _ pvol).
  - f_equal. ring.
  - intros t I. unfold tets in T. rewrite Forall_forall in T. destruct (T t I). apply tet6_num; assumption.
Qed.
Lemma L_C78_tetrahedron : forall t, length t = 4%nat -> goods 6 t ->
  exists v, tetrahedron_volume_6d (A3 t) = Ok (Some v) /\ tetrahedron_volume_6d_numerical Rnum t = Ok (val TAU v).
Proof.
  intros t L G. destruct (wp_elim _ _ (tetvol6_spec t L G)) as (v & E & _ & V). exists v. cbn [tetrahedron_volume_6d]. rewrite E. split; [reflexivity|].
  rewrite V. apply tet6_num; assumption.
Qed.
(** For dodecagonal objects this needs the triangles to lie in planes z = const of the
    3-d coordinates (the sixth coordinate constant along a triangle). *)
Lemma L_C78_area : forall o, tris o -> Forall (fun t => exists h, level h t) o ->
  exists v, obj_area_6d (A4 o) = Ok (Some v) /\ dobj_volume_6d_numerical Rnum o = Ok (val SIN v).
Proof.
  intros o T Lv. destruct (wp_elim _ _ (obj_area_spec o T)) as (r & E & v & -> & _ & V). exists v. split; [exact E|]. rewrite V.
  unfold dobj_volume_6d_numerical. change (fadd Rnum) with Rplus. change (fZ Rnum 0) with 0. rewrite (foldM_sum _ parea).
  - f_equal. ring.
  - intros t I. unfold tris in T. rewrite Forall_forall in T, Lv. destruct (T t I), (Lv t I) as (h & Lh). apply (tri6_num h); assumption.
Qed.
(** Otherwise the numerical function measures the inclined triangle and the exact one its
    projection on the plane. *)
Lemma L_C78_area_inclined_refuted : exists t v, length t = 3%nat /\ goods 6 t /\
  triangle_area_6d (A3 t) = Ok (Some v) /\ val SIN v = 0 /\ triangle_volume_6d_numerical Rnum t = Ok (1/2).
Proof.
  exists [o6; x2; x6], (T 0 0 1). split; [reflexivity|]. assert (G : goods 6 [o6; x2; x6]) by gds. split; [exact G|]. split; [vm_compute; reflexivity|].
  split; [unfold val; cbn; field|]. unfold triangle_volume_6d_numerical. rewrite dinternals_R by (apply goods_l6, G). cbn [bind map].
  unfold triangle_area_numerical. cbn [get nth_error bind]. apply (f_equal (@Ok R)). rewrite area3_R.
  assert (E6 : dp x6 = (0, 0, 1)) by (unfold x6, iv, dp, dppoint; cbn; unfold dot, val; cbn; eq3; field).
  rewrite dpo6, dpx2, E6. unfold tri_area, norm3. cbn.
  match goal with |- sqrt ?a / 2 = _ => replace a with 1 by ring end. rewrite sqrt_1. reflexivity.
Qed.
(** The area of a triangle given by three 3-d points, and the volumes of objects given by
    3-d points. *)
Lemma L_C78_triangle_area : forall a b c : tau * tau * tau,
  let row (p : tau * tau * tau) := [fst (fst p); snd (fst p); snd p] in
  let at_ w (p : tau * tau * tau) : R3 := (val w (fst (fst p)), val w (snd (fst p)), val w (snd p)) in
  Numeric2.triangle_area Rnum (map row [a; b; c]) = Ok (tri_area (at_ TAU a) (at_ TAU b) (at_ TAU c)) /\
  dtriangle_area Rnum (map row [a; b; c]) = Ok (tri_area (at_ SIN a) (at_ SIN b) (at_ SIN c)).
Proof.
  intros [[a0 a1] a2] [[b0 b1] b2] [[c0 c1] c2]. cbn [fst snd]. unfold Numeric2.triangle_area, dtriangle_area, triangle_area_, row3.
  cbn [map fst snd get nth_error bind]. rewrite !numeric_value_R, !dnumeric_value_R, !area3_R. split; reflexivity.
Qed.
Lemma L_C78_points : forall ts : list (R3 * R3 * R3 * R3),
  obj_volume_numerical Rnum (map (fun '(a, b, c, d) => [a; b; c; d]) ts) = Ok (Rsum (map (fun '(a, b, c, d) => vol3 a b c d) ts)).
Proof.
  intros ts. unfold obj_volume_numerical. change (fadd Rnum) with Rplus. change (fZ Rnum 0) with 0.
  enough (H : forall s, foldM (fun v t => w <- tetrahedron_volume_numerical Rnum t ;; Ok (v + w))%res s (map (fun '(a, b, c, d) => [a; b; c; d]) ts) =
    Ok (s + Rsum (map (fun '(a, b, c, d) => vol3 a b c d) ts))) by (etransitivity; [apply H|f_equal; ring]).
  induction ts as [|[[[a b] c] d] ts IH]; intros s; cbn [map foldM Rsum]; [f_equal; ring|].
  unfold tetrahedron_volume_numerical at 1. cbn [get nth_error bind]. rewrite vol4_R. etransitivity; [apply IH|]. f_equal. ring.
Qed.
Example E_C78_ex : good 6 x1 /\ tets [[o6; x1; x2; x3]] /\ tris [triA; triB] /\ Forall (fun t => exists h, level h t) [triA; triB] /\
  obj_volume_6d (A4 [[o6; x1; x2; x3]]) <> Ok (Some t0) /\ obj_area_6d (A4 [triA; triB]) <> Ok (Some t0).
Proof.
  split; [gds|]. split; [unfold tets; repeat (apply Forall_cons; [split; [reflexivity|gds]|]); apply Forall_nil|].
  split; [unfold tris; repeat (apply Forall_cons; [split; [reflexivity|gds]|]); apply Forall_nil|]. split.
  - repeat (apply Forall_cons; [exists 0; unfold level; repeat (apply Forall_cons; [unfold height, dp, dppoint; cbn; unfold dot, val; cbn; field|]); apply Forall_nil|]). apply Forall_nil.
  - split; vm_compute; discriminate.
Qed.

(** C81: functions of the two numericalc modules that cannot be used.  Two segments have
    two end points each, but the third row of the second is read. *)
Lemma L_C81_two_segments : forall N (a b c d : pt N), check_intersection_two_segment_numerical N [a; b] [c; d] = Raise IndexError.
Proof. reflexivity. Qed.
(** dode2 inside_outside_obj looks up a name that is not defined as soon as the object has
    a triangle; for the empty object every point counts as inside. *)
Lemma L_C81_inside_obj : forall N p o, (o <> [] -> dinside_outside_obj N p o = Raise NameError) /\ dinside_outside_obj N p [] = Ok true.
Proof. intros N p o. split; [|reflexivity]. destruct o; [congruence|reflexivity]. Qed.
Lemma L_C81_inside_obj_tau : forall v a, exists e, dinside_outside_obj_tau v a = Raise e.
Proof. intros v a. destruct a; cbn; eexists; reflexivity. Qed.
Example E_C81_ex : [triA] <> [] /\ dinside_outside_obj Rnum o3 [map dp triA] = Raise NameError.
Proof. split; [discriminate|reflexivity]. Qed.
