(** Intersection of triangles and objects of the dodecagonal package (dode2/intsct.py):
    C70-C73, C75.  [N] is any arithmetic for the floating-point tests ([Bnum] is binary64,
    [Rnum] exact); the Delaunay triangulation is arbitrary.  [level h]: all vertices
    have the same third coordinate h in perpendicular space. *)
From Coq Require Import Reals List ZArith Lia Lra Bool.
From Verif Require Import Base.Res Model.Tau Model.Arr Model.Num Model.DodeMath1 Model.DodeNumeric Model.DodeArea Model.DodeIntersect
  Spec.Value Spec.RVec Spec.Shape Spec.DodeSpec Spec.Sets Spec.Space Spec.Tetra Spec.Overlap Spec.Plane Spec.Samples Spec.DodeSamples.
Import ListNotations.
Local Open Scope R_scope.

From Verif Require Import Model.IcoIntersect Model.Unique Model.IcoDedup Model.DodeDedup Model.Vectors Spec.Surface Proofs.ResLemmas Proofs.ScalarLemmas Proofs.ValueLemmas Proofs.VectorLemmas Proofs.VectorLemmas2 Proofs.RVecLemmas Proofs.MeanLemmas
  Proofs.DodeProj Proofs.DodeDedupLemmas Proofs.DodeAreaLemmas Proofs.Irrational Proofs.NumLemmas Proofs.IntersectLemmas Proofs.PlaneLemmas Proofs.DodeIntersectLemmas Proofs.Polygon Proofs.Polytope Proofs.IcoProj Proofs.DedupLemmas Proofs.SurfaceLemmas.

Ltac vmr := match goal with |- _ = ?r => vm_cast_no_check (eq_refl r) end.
Ltac vmall := match goal with |- _ /\ _ => split; [vmr|vmall] | _ => vmr end.
Ltac gd := unfold tris, goodo, goods, good, wfv, wf; cbn; repeat (apply Forall_cons || apply Forall_nil || split || discriminate || reflexivity).

(** C70: the inside test in exact arithmetic, for a point and a triangle of one plane:
    true exactly if the triangle is not degenerate and the absolute values of the barycentric
    coordinates of the point add up to less than 1+1e-6. *)
Lemma L_C70_iff : forall h v a b c, goods 6 [v; a; b; c] -> level h [v; a; b; c] ->
  (inside_outside_triangle_tau Rnum v [a; b; c] = Ok true <->
   ~ flat3 (dp a) (dp b) (dp c) /\ exists ws, bary ws [dp a; dp b; dp c] (dp v) /\ Rsum (map Rabs ws) < 1 + 1 / 1000000).
Proof.
  intros h v a b c G L. unfold inside_outside_triangle_tau. rewrite dinternal_R by (apply (goods_in 6 _ _ G); cbn; tauto). cbn [bind].
  rewrite dinternals_R by (apply goods_l6; eapply goods_incl; [exact G|intros x Hx; right; exact Hx]). cbn [bind map].
  change (inside_outside_triangle Rnum (dp v) [dp a; dp b; dp c]) with (Ok (in_tri Rnum (dp v) (dp a) (dp b) (dp c))).
  rewrite <- (in_tri_spec h) by (apply (level_in h _ _ L); cbn; tauto). split; [intros H; injection H as H; exact H|intros ->; reflexivity].
Qed.

(** Every point of the closed triangle passes ... *)
Lemma L_C70_closed_triangle : forall h v a b c, goods 6 [v; a; b; c] -> level h [v; a; b; c] -> ~ flat3 (dp a) (dp b) (dp c) ->
  hull [dp a; dp b; dp c] (dp v) -> inside_outside_triangle_tau Rnum v [a; b; c] = Ok true.
Proof.
  intros h v a b c G L NF (ws & B & P). apply (L_C70_iff h v a b c G L). split; [exact NF|]. exists ws. split; [exact B|].
  replace (Rsum (map Rabs ws)) with 1; [lra|]. destruct B as (_ & S & _). rewrite <- S. clear - P.
  induction P as [|w ws W _ IH]; [reflexivity|]. cbn [map]. rewrite !Rsum_cons, <- IH, Rabs_pos_eq by exact W. reflexivity.
Qed.

(** ... and nothing passes whose barycentric coordinates are below -5e-7, so that a degenerate
    triangle contains nothing at all. *)
Lemma L_C70_sharp : forall h v a b c, goods 6 [v; a; b; c] -> level h [v; a; b; c] ->
  inside_outside_triangle_tau Rnum v [a; b; c] = Ok true ->
  ~ flat3 (dp a) (dp b) (dp c) /\ near (1/2000000) [dp a; dp b; dp c] (dp v).
Proof.
  intros h v a b c G L H. apply (L_C70_iff h v a b c G L) in H as (NF & ws & B & S). split; [exact NF|]. exists ws. split; [exact B|].
  destruct (bary3 _ _ _ _ _ B) as (w0 & w1 & w2 & -> & E). cbn [map] in S. unfold Rsum in S; cbn [fold_right] in S.
  pose proof (Rle_abs w0). pose proof (Rle_abs w1). pose proof (Rle_abs w2).
  pose proof (Rle_abs (- w0)). pose proof (Rle_abs (- w1)). pose proof (Rle_abs (- w2)). rewrite Rabs_Ropp in *.
  repeat (apply Forall_cons; [lra|]). constructor.
Qed.

(** The test itself never raises, in any arithmetic. *)
Lemma L_C70_total : forall N v t, good 6 v -> goods 6 t -> length t = 3%nat -> exists b, inside_outside_triangle_tau N v t = Ok b.
Proof. intros N v t Gv Gt L. exact (dinside_ok N v t (good_l6 _ Gv) (goods_l6 _ Gt) L). Qed.

(** (1/4,1/4) is inside (0,0),(1,0),(0,1); (1/4,5/4) is not; nothing is inside a degenerate triangle. *)
Example E_C70_ex : goods 6 (q 1 1 :: triA) /\ level 0 (q 1 1 :: triA) /\ ~ flat3 (dp o6) (dp x2) (dp x3) /\ hull (map dp triA) (dp (q 1 1)) /\
  inside_outside_triangle_tau Bnum (q 1 1) triA = Ok true /\ inside_outside_triangle_tau Bnum (q 1 5) triA = Ok false /\
  inside_outside_triangle_tau Bnum x2 [o6; x2; iv [0;2;0;0;0;0]%Z] = Ok false.
Proof.
  split; [gd|]. split.
  { unfold level, triA, q, pl, o6, x2, x3, iv, dp, dppoint. repeat (apply Forall_cons; [cbn; unfold dot, val; cbn; field|]). constructor. }
  split.
  { unfold flat3, dp, dppoint, o6, x2, x3, iv. cbn. unfold dot, val. cbn. unfold Rdiv. rewrite Rinv_1. lra. }
  split.
  { exists [1/2; 1/4; 1/4]. split; [|repeat (apply Forall_cons; [lra|]); constructor]. split; [reflexivity|]. split; [unfold Rsum; cbn; lra|].
    unfold triA, q, pl, dp, dppoint, o6, x2, x3, iv. cbn. unfold dot, val. cbn. apply f_equal2; [apply f_equal2|]; field. }
  vmall.
Qed.

(** C71: when two segments of one plane are reported to meet, in exact arithmetic. *)
Lemma L_C71_test : forall h A B C D, goods 6 [A; B; C; D] -> level h [A; B; C; D] ->
  (dcheck_intersection_two_segment_numerical_6d_tau Rnum [A; B] [C; D] = Ok true <->
   1/1000000 <= det2 (sub3 (dp B) (dp A)) (sub3 (dp D) (dp C)) * det2 (sub3 (dp B) (dp A)) (sub3 (dp D) (dp C)) /\
   exists p, hull [dp A; dp B] p /\ hull [dp C; dp D] p).
Proof.
  intros h A B C D G L. rewrite segseg_R by exact G. rewrite <- (seg_seg_plane h) by (apply (level_in h _ _ L); cbn; tauto).
  split; [intros H; injection H as H; exact H|intros ->; reflexivity].
Qed.

(** Without the assumption of one plane: the points of the two lines nearest to one another
    belong to the segments and are less than 1e-3 apart. *)
Lemma L_C71_test_space : forall A B C D, goods 6 [A; B; C; D] ->
  let AB := sub3 (dp B) (dp A) in let CD := sub3 (dp D) (dp C) in
  (dcheck_intersection_two_segment_numerical_6d_tau Rnum [A; B] [C; D] = Ok true <->
   1/1000000 <= dot3 (cross3 AB CD) (cross3 AB CD) /\
   exists s t, 0 <= s <= 1 /\ 0 <= t <= 1 /\
     let gap := sub3 (add3 (dp C) (scale3 t CD)) (add3 (dp A) (scale3 s AB)) in
     dot3 gap AB = 0 /\ dot3 gap CD = 0 /\ dot3 gap gap < 1/1000000).
Proof.
  intros A B C D G AB CD. rewrite segseg_R by exact G.
  apply iff_trans with (seg_seg Rnum (dp A) (dp B) (dp C) (dp D) = true); [split; [intros H; injection H as H; exact H|intros ->; reflexivity]|].
  exact (seg_seg_R (dp A) (dp B) (dp C) (dp D)).
Qed.

(** Any arithmetic: whenever the test reports a hit, and the segments are not parallel, the
    result is the canonical vector A+t(B-A) for the t at which the lines meet. *)
Lemma L_C71_point : forall N A B C D t u, goods 6 [A; B; C; D] ->
  dcheck_intersection_two_segment_numerical_6d_tau N [A; B] [C; D] = Ok true ->
  cross3 (sub3 (dp B) (dp A)) (sub3 (dp D) (dp C)) <> o3 ->
  add3 (dp A) (scale3 t (sub3 (dp B) (dp A))) = add3 (dp C) (scale3 u (sub3 (dp D) (dp C))) ->
  exists p, dintersection_two_segment N [A; B] [C; D] = Ok (Some p) /\ cgood 6 p /\
    vals SIN p = vadd (vals SIN A) (vscale t (vsub (vals SIN B) (vals SIN A))) /\
    dp p = add3 (dp A) (scale3 t (sub3 (dp B) (dp A))).
Proof.
  intros N A B C D t u G Ht NP E.
  assert (GA : good 6 A) by (apply (goods_in 6 _ _ G); cbn; tauto). assert (GB : good 6 B) by (apply (goods_in 6 _ _ G); cbn; tauto).
  assert (GC : good 6 C) by (apply (goods_in 6 _ _ G); cbn; tauto). assert (GD : good 6 D) by (apply (goods_in 6 _ _ G); cbn; tauto).
  pose proof (its_spec N A B C D GA GB GC GD Ht) as Is. cbv zeta in Is.
  pose proof (crossing_param (dp A) (dp B) (dp C) (dp D) t u) as Cp. cbv zeta in Cp. specialize (Cp E).
  destruct (Req_EM_T _ 0) as [Z|NZ] in Is.
  - exfalso. rewrite lagrange in Z. apply NP. revert Z. generalize (cross3 (sub3 (dp B) (dp A)) (sub3 (dp D) (dp C))). intros w Z.
    p3 w. cbn in Z. unfold o3.
    match goal with |- (?x, ?y, ?z) = _ => assert (x = 0 /\ y = 0 /\ z = 0) as (-> & -> & ->); [|reflexivity] end.
    match goal with |- ?x = 0 /\ ?y = 0 /\ ?z = 0 => pose proof (Rle_0_sqr x); pose proof (Rle_0_sqr y); pose proof (Rle_0_sqr z) end.
    unfold Rsqr in *. repeat split; apply Rsqr_0_uniq; unfold Rsqr; lra.
  - destruct Is as (v & Ev & Cv & Vv). rewrite Cp in Vv. exists v. split; [exact Ev|]. split; [exact Cv|].
    match type of Vv with context [vscale (?x * ?y / ?y)] => replace (x * y / y) with x in Vv by (field; exact NZ) end.
    split; [exact Vv|].
    assert (LA : length (vals SIN A) = 6%nat) by (rewrite vals_length; apply GA).
    assert (LB : length (vals SIN B) = 6%nat) by (rewrite vals_length; apply GB).
    assert (LS : length (vsub (vals SIN B) (vals SIN A)) = 6%nat) by (rewrite vsub_length; lia).
    rewrite dp_tri3, Vv. rewrite (proj2 (dperp_affine _ _ _ LA LS)), (proj1 (dperp_affine _ _ 0 LB LA)). reflexivity.
Qed.

(** Segments reported to meet that are exactly parallel make it raise. *)
Lemma L_C71_parallel : forall N A B C D, goods 6 [A; B; C; D] ->
  dcheck_intersection_two_segment_numerical_6d_tau N [A; B] [C; D] = Ok true ->
  cross3 (sub3 (dp B) (dp A)) (sub3 (dp D) (dp C)) = o3 ->
  dintersection_two_segment N [A; B] [C; D] = Raise TypeError.
Proof.
  intros N A B C D G Ht E0.
  assert (GA : good 6 A) by (apply (goods_in 6 _ _ G); cbn; tauto). assert (GB : good 6 B) by (apply (goods_in 6 _ _ G); cbn; tauto).
  assert (GC : good 6 C) by (apply (goods_in 6 _ _ G); cbn; tauto). assert (GD : good 6 D) by (apply (goods_in 6 _ _ G); cbn; tauto).
  pose proof (its_spec N A B C D GA GB GC GD Ht) as Is. cbv zeta in Is. destruct (Req_EM_T _ 0) as [Z|NZ] in Is; [exact Is|].
  exfalso. apply NZ. rewrite lagrange, E0. unfold o3. cbn. ring.
Qed.

(** Exact arithmetic, one plane: the result is the common point of the two closed segments;
    None only if there is none or the segments are parallel within the tolerance. *)
Lemma L_C71_exact : forall h A B C D, goods 6 [A; B; C; D] -> level h [A; B; C; D] ->
  let k := det2 (sub3 (dp B) (dp A)) (sub3 (dp D) (dp C)) in
  exists o, dintersection_two_segment Rnum [A; B] [C; D] = Ok o /\
   match o with
   | Some v => cgood 6 v /\ 1/1000000 <= k * k /\ hull [dp A; dp B] (dp v) /\ hull [dp C; dp D] (dp v) /\
       (forall p, hull [dp A; dp B] p -> hull [dp C; dp D] p -> p = dp v) /\
       exists t, vals SIN v = vadd (vals SIN A) (vscale t (vsub (vals SIN B) (vals SIN A)))
   | None => k * k < 1/1000000 \/ forall p, ~ (hull [dp A; dp B] p /\ hull [dp C; dp D] p)
   end.
Proof.
  intros h A B C D G L k. destruct (its_plane h A B C D G L) as (o & E & H). exists o. split; [exact E|]. destruct o as [v|]; [|exact H].
  destruct H as (Cv & K & H1 & H2 & T). split; [exact Cv|]. split; [exact K|]. split; [exact H1|]. split; [exact H2|]. split; [|exact T].
  intros p P1 P2. refine (lines_meet_once _ _ _ _ _ _ _ P1 P2 H1 H2). intros Z. rewrite Z in K. lra.
Qed.

(** In binary64: the diagonal from (0,0) to (1,1) meets the edge from (1,0) to (0,1) in the middle. *)
Example E_C71_ex : goods 6 [o6; iv [0;1;1;0;0;0]%Z; x2; x3] /\ level 0 [o6; iv [0;1;1;0;0;0]%Z; x2; x3] /\
  dcheck_intersection_two_segment_numerical_6d_tau Bnum [o6; iv [0;1;1;0;0;0]%Z] [x2; x3] = Ok true /\
  cross3 (sub3 (dp (iv [0;1;1;0;0;0]%Z)) (dp o6)) (sub3 (dp x3) (dp x2)) <> o3 /\
  add3 (dp o6) (scale3 (1/2) (sub3 (dp (iv [0;1;1;0;0;0]%Z)) (dp o6))) = add3 (dp x2) (scale3 (1/2) (sub3 (dp x3) (dp x2))) /\
  dintersection_two_segment Bnum [o6; iv [0;1;1;0;0;0]%Z] [x2; x3] = Ok (Some (pl (T 1 0 2) (T 1 0 2))).
Proof.
  split; [gd|]. split.
  { unfold level, o6, x2, x3, iv, dp, dppoint. repeat (apply Forall_cons; [cbn; unfold dot, val; cbn; field|]). constructor. }
  split; [vmr|]. split.
  { unfold dp, dppoint, o6, x2, x3, iv, o3. cbn. unfold dot, val. cbn. unfold Rdiv. rewrite Rinv_1. intros H. injection H as _ _ H. lra. }
  split; [|vmr].
  unfold dp, dppoint, o6, x2, x3, iv. cbn. unfold dot, val. cbn. unfold add3, scale3, sub3. apply f_equal2; [apply f_equal2|]; field.
Qed.

(** C72: the four classes of a pair of triangles, for any arithmetic; never raises. *)
Lemma L_C72_classes : forall N t1 t2, tris [t1] -> tris [t2] ->
  let in1 := forall v, In v t1 -> inside_outside_triangle_tau N v t2 = Ok true in
  let in2 := forall v, In v t2 -> inside_outside_triangle_tau N v t1 = Ok true in
  let meets := fun s e => dcheck_intersection_two_segment_numerical_6d_tau N s e = Ok true in
  exists k, check_intersection_two_triangles N t1 t2 = Ok k /\
    (k = 1%Z <-> in1) /\ (k = 2%Z <-> ~ in1 /\ in2) /\
    (k = 3%Z <-> ~ in1 /\ ~ in2 /\ (edges_cross meets t1 t2 \/ edges_cross meets t2 t1)) /\
    (k = 0%Z <-> ~ in1 /\ ~ in2 /\ ~ edges_cross meets t1 t2 /\ ~ edges_cross meets t2 t1).
Proof.
  intros N t1 t2 T1 T2 in1 in2 meets. destruct (Forall_inv T1) as [L1 G1]. destruct (Forall_inv T2) as [L2 G2].
  destruct (dclassify_spec N t1 t2 (goods_l6 _ G1) (goods_l6 _ G2) L1 L2) as [[H1 E]|[(H1 & H2 & E)|[(H1 & H2 & H3 & E)|(H1 & H2 & H3 & E)]]];
    fold in1 in H1; try (fold in2 in H2).
  - exists 1%Z. split; [exact E|]. split; [tauto|]. split; [split; [discriminate|tauto]|]. split; (split; [discriminate|tauto]).
  - exists 2%Z. split; [exact E|]. split; [split; [discriminate|tauto]|]. split; [tauto|]. split; (split; [discriminate|tauto]).
  - exists 3%Z. split; [exact E|]. split; [split; [discriminate|tauto]|]. split; [split; [discriminate|tauto]|]. fold meets in H3. split; [tauto|]. split; [discriminate|tauto].
  - exists 0%Z. split; [exact E|]. split; [split; [discriminate|tauto]|]. split; [split; [discriminate|tauto]|]. fold meets in H3. split; [split; [discriminate|tauto]|tauto].
Qed.

(** The distance test in exact arithmetic never discards a triangle that has a point in
    common with a ball around the given centre. *)
Lemma L_C72_ball : forall t c r p, t <> [] -> goods 6 t -> good 6 c ->
  hull (map dp t) p -> dist3 p (dp c) <= r ->
  rough_check_intersection_triangle_obj Rnum t c r = Ok true.
Proof.
  intros t c r p Ht G Gc Hp Hr. unfold rough_check_intersection_triangle_obj.
  destruct (wp_elim _ _ (centroid_spec dode_arith t Ht G)) as (m & Em & Cm & Vm). fold dcentroid in Em. rewrite Em. cbn [bind].
  assert (Gm : good 6 m).
  { apply dgood_canon; [exact Cm|]. rewrite <- (vals_length SIN), Vm. apply mean_length. rewrite Forall_map. eapply Forall_impl; [|exact G].
    intros v [_ L]. rewrite vals_length. exact L. }
  unfold dball_radius. destruct (dball_radius_R t (A3 t) m (or_introl eq_refl) G Gm) as (b & -> & _ & Hb & _). cbn [bind].
  rewrite ddistance_R by assumption. cbn [bind]. apply (f_equal (@Ok bool)). toR. apply Rleb_true.
  pose proof (hull_ball _ p (dp m) b Hp) as Hm. rewrite Forall_map, Forall_forall in Hm. specialize (Hm Hb).
  pose proof (dist3_triangle (dp m) p (dp c)) as T. rewrite (dist3_sym (dp m) p) in T. lra.
Qed.

(** The radius of an object is the largest distance of a vertex from the centre ... *)
Lemma L_C72_radius : forall o c, goodo 6 o -> good 6 c -> exists r, dball_radius_obj Rnum (A4 o) c = Ok r /\
  (forall t p, In t o -> hull (map dp t) p -> dist3 p (dp c) <= r) /\
  (r = 0 \/ exists t v, In t o /\ In v t /\ r = dist3 (dp v) (dp c)).
Proof.
  intros o c Go Gc. assert (G : goods 6 (concat o)).
  { apply Forall_forall. intros v Hv. apply in_concat in Hv as (t & Ht & Hv). unfold goodo in Go. rewrite Forall_forall in Go. specialize (Go t Ht).
    unfold goods in Go. rewrite Forall_forall in Go. auto. }
  destruct (dball_radius_R (concat o) (A4 o) c) as (r & E & _ & Hr & Ha); [right; eauto|exact G|exact Gc|].
  exists r. split; [exact E|]. split.
  - intros t p Ht Hp. apply (hull_ball _ p (dp c) r Hp). rewrite Forall_map, Forall_forall. intros v Hv. apply Hr, in_concat. eauto.
  - destruct Ha as [->|(v & Hv & ->)]; [left; reflexivity|right]. apply in_concat in Hv as (t & Ht & Hv). eauto.
Qed.

(** ... and a triangle that has a point in common with a triangle of the object passes
    the test with the object's centroid and radius. *)
Lemma L_C72_never_discards : forall t o t2 p, t <> [] -> goods 6 t -> tris o -> In t2 o ->
  hull (map dp t) p -> hull (map dp t2) p ->
  exists c r, dcentroid_obj o = Ok c /\ dball_radius_obj Rnum (A4 o) c = Ok r /\
    rough_check_intersection_triangle_obj Rnum t c r = Ok true.
Proof.
  intros t o t2 p Ht G To Hin Hp Hp2.
  assert (Ne : o <> []) by (intros ->; destruct Hin).
  assert (To' : Forall (fun t => t <> [] /\ goods 6 t) o).
  { eapply Forall_impl; [|exact To]. intros x [L Gx]. split; [|exact Gx]. intros ->. discriminate. }
  destruct (wp_elim _ _ (centroid_obj_spec dode_arith o Ne To')) as (c & Ec & Cc & Vc). fold dcentroid_obj in Ec.
  assert (Gc : good 6 c).
  { apply dgood_canon; [exact Cc|]. rewrite <- (vals_length SIN), Vc. apply mean_length. rewrite Forall_map. eapply Forall_impl; [|exact To].
    intros x [_ Gx]. apply mean_length. rewrite Forall_map. eapply Forall_impl; [|exact Gx]. intros v [_ L]. rewrite vals_length. exact L. }
  destruct (L_C72_radius o c (tris_goodo _ To) Gc) as (r & Er & Hr & _). exists c, r. split; [exact Ec|]. split; [exact Er|].
  eapply L_C72_ball; try eassumption. eapply Hr; eassumption.
Qed.

Example E_C72_ex : tris [triA] /\ tris [triB] /\
  check_intersection_two_triangles Bnum triA triB = Ok 3%Z /\ check_intersection_two_triangles Bnum triS triA = Ok 1%Z /\
  check_intersection_two_triangles Bnum triA triS = Ok 2%Z /\ check_intersection_two_triangles Bnum triA triF = Ok 0%Z.
Proof. split; [gd|]. split; [gd|]. vmall. Qed.
Example E_C72_overlap_ex : triA <> [] /\ goods 6 triA /\ tris [triF; triB] /\ In triB [triF; triB] /\
  hull (map dp triA) (dp (q 1 1)) /\ hull (map dp triB) (dp (q 1 1)).
Proof.
  split; [discriminate|]. split; [gd|]. split; [gd|]. split; [cbn; auto|]. split; [apply E_C70_ex|].
  apply hull_mem. left. reflexivity.
Qed.

(** C73: what triangulation_points keeps.  [q]: the points handed to Delaunay, the first two
    coordinates of the projections; [l]: the simplices it returns. *)
Lemma L_C73_pieces : forall N delaunay p r, goods 6 p -> triangulation_points N delaunay p = Ok r ->
  exists q, mapM (fun v => bind (dprojection3 v) (fun w => Ok (firstn 2 (dnumerical_vector N w)))) p = Ok q /\
   match delaunay q with
   | None => r = None
   | Some l => exists ts, Forall2 (corners_at p) l ts /\
     match r with
     | None => Forall (fun t => parea t = 0) ts
     | Some o => o <> [] /\ subseq o ts /\ (forall t, In t o <-> In t ts /\ parea t <> 0) /\ Forall (fun t => incl t p) o
     end
   end.
Proof.
  intros N delaunay p r G H. unfold triangulation_points in H.
  apply bind_Ok_inv in H as (q & Eq & H). exists q. split; [exact Eq|]. destruct (delaunay q) as [l|]; [|injection H as <-; reflexivity].
  apply bind_Ok_inv in H as (o & Eo & H). injection H as <-.
  destruct (dkeep_spec p l o G Eo) as (ts & F & S & I). exists ts. split; [exact F|].
  destruct o as [|t o].
  - apply Forall_forall. intros t Ht. destruct (Req_dec (parea t) 0) as [E|E]; [exact E|]. exfalso. apply (proj2 (I t)). auto.
  - split; [discriminate|]. split; [exact S|]. split; [exact I|]. apply Forall_forall. intros t' Ht'. apply I in Ht' as [Ht' _].
    clear - F G Ht'. induction F as [|s x l ts H _ IH]; [destruct Ht'|]. destruct Ht' as [<-|Ht']; [|auto]. apply (corners_at_tri p s x G H).
Qed.

(** It raises only if the triangulation names a missing point. *)
Lemma L_C73_pieces_total : forall N delaunay p, goods 6 p ->
  (forall q l, length q = length p -> delaunay q = Some l -> exists ts, Forall2 (corners_at p) l ts) ->
  exists r, triangulation_points N delaunay p = Ok r.
Proof.
  intros N delaunay p G D. unfold triangulation_points.
  assert (Q : exists q, mapM (fun v => bind (dprojection3 v) (fun w => Ok (take2 N (dnumerical_vector N w)))) p = Ok q).
  { clear - G. induction G as [|v p Hv _ (q & IH)]; cbn [mapM]; [eauto|].
    destruct (wp_elim _ _ (dprojection3_spec v Hv)) as (w & -> & _). cbn [bind]. rewrite IH. cbn [bind]. eauto. }
  destruct Q as (q & Eq). rewrite Eq. cbn [bind]. destruct (delaunay q) as [l|] eqn:Ed; [|eauto].
  destruct (D q l) as (ts & F); [eapply mapM_length; exact Eq|exact Ed|]. destruct (dkeep_ok p l ts G F) as (o & ->). cbn [bind]. eauto.
Qed.

(** The intersection of two triangles, any arithmetic: None or a non-empty list of
    triangles whose vertices are admissible points.  ps: the admissible points without
    repetitions in perpendicular space. *)
Lemma L_C73_result : forall N delaunay t1 t2 r, tris [t1] -> tris [t2] ->
  intersection_two_triangles N delaunay t1 t2 = Ok r ->
  let adm := admissible2 (fun v t => inside_outside_triangle_tau N v t = Ok true)
               (fun s e v => dintersection_two_segment N s e = Ok (Some v)) t1 t2 in
  exists ps, (forall v, In v ps -> adm v) /\ NoDup (map dppoint ps) /\ (forall v, adm v -> In (dppoint v) (map dppoint ps)) /\ goods 6 ps /\
   match r with
   | None => (length ps < 3)%nat \/ ((3 < length ps)%nat /\ triangulation_points N delaunay ps = Ok None) \/
       exists k p, dcollect N t1 t2 = Ok (k, p) /\ (k < 3)%nat
   | Some o => (3 <= length ps)%nat /\ o <> [] /\ tris o /\ (forall t v, In t o -> In v t -> adm v) /\
       (length ps = 3%nat -> o = [ps]) /\
       ((3 < length ps)%nat -> triangulation_points N delaunay ps = Ok (Some o) /\ Forall (fun t => parea t <> 0) o)
   end.
Proof.
  intros N delaunay t1 t2 r TT1 TT2 H adm. unfold intersection_two_triangles in H.
  assert (T1 : tri1 t1) by exact (Forall_inv TT1). assert (T2 : tri1 t2) by exact (Forall_inv TT2).
  apply bind_Ok_inv in H as ([k c] & Ec & H). pose proof (dcollect_In N t1 t2 k c T1 T2 Ec) as I. fold adm in I. pose proof (dcollect_good N t1 t2 k c T1 T2 Ec) as Gc.
  destruct (dperp_space_spec c Gc) as (ps & Eps & Inc & ND & SS). exists ps.
  assert (Gp : goods 6 ps) by (eapply goods_incl; eassumption).
  split; [intros v Hv; apply I, Inc, Hv|]. split; [exact ND|]. split; [intros v Hv; apply SS, in_map, I, Hv|]. split; [exact Gp|].
  destruct (Nat.leb_spec 3 k) as [Lc|Lc]; [|injection H as <-; right; right; eauto].
  rewrite Eps in H. cbn [bind] in H. destruct (Nat.ltb_spec 3 (length ps)) as [Lp|Lp].
  - destruct r as [o|]; [|right; left; split; [exact Lp|exact H]]. split; [lia|].
    destruct (L_C73_pieces N delaunay ps _ Gp H) as (q & _ & K). destruct (delaunay q) as [l|]; [|discriminate].
    destruct K as (ts & F & No & S & It & If). split; [exact No|]. split; [|split; [|split; [lia|]]].
    + apply Forall_forall. intros t Ht. apply It in Ht as [Ht _]. clear - F Gp Ht.
      induction F as [|s x l ts H _ IH]; [destruct Ht|]. destruct Ht as [<-|Ht]; [|auto]. apply (corners_at_tri ps s x Gp H).
    + intros t u Ht Hu. rewrite Forall_forall in If. apply I, Inc, (If t Ht u Hu).
    + intros _. split; [exact H|]. apply Forall_forall. intros t Ht. apply It in Ht. tauto.
  - destruct (Nat.eqb_spec (length ps) 3) as [E3|E3]; injection H as <-; [|left; lia].
    split; [lia|]. split; [discriminate|]. split; [constructor; [split; assumption|constructor]|]. split; [|split; [reflexivity|lia]].
    intros t v [<-|[]] Hv. apply I, Inc, Hv.
Qed.

(** It is meant to be called on pairs of class 3 only: triangles no edges of which meet
    make it raise UnboundLocalError ... *)
Lemma L_C73_unbound : forall N delaunay t1 t2, tris [t1] -> tris [t2] ->
  (forall s e, edge_of s t1 -> edge_of e t2 -> dcheck_intersection_two_segment_numerical_6d_tau N s e = Ok false) ->
  (forall s e, edge_of s t2 -> edge_of e t1 -> dcheck_intersection_two_segment_numerical_6d_tau N s e = Ok false) ->
  intersection_two_triangles N delaunay t1 t2 = Raise UnboundLocalError.
Proof.
  intros N delaunay t1 t2 TT1 TT2 H1 H2. destruct (Forall_inv TT1) as [L1 G1]. destruct (Forall_inv TT2) as [L2 G2].
  assert (K : forall u v c, length u = 3%nat -> goods 6 u -> length v = 3%nat -> goods 6 v -> In c tedge_ix ->
    (forall s e, edge_of s u -> edge_of e v -> dcheck_intersection_two_segment_numerical_6d_tau N s e = Ok false) -> dedge_points N u v c = Ok []).
  { intros u v c Lu Gu Lv Gv Hc H. unfold dedge_points. destruct (tedge_pick_ok u c Lu Hc) as (s & -> & Hs). rewrite pick3_id by exact Lv. cbn [bind].
    unfold dintersection_segment_surface. destruct (dsegsur_spec N s v (edge_l6 _ _ Hs (goods_l6 _ Gu)) (goods_l6 _ Gv) (proj2 Hs) Lv) as (b & -> & Hb). cbn [bind].
    destruct b; [|reflexivity]. destruct (proj1 Hb eq_refl) as (e & He & Hm). rewrite (H s e Hs He) in Hm. discriminate. }
  assert (E : dedge_hits N t1 t2 tedge_ix = Ok []).
  { unfold tedge_ix. cbn [dedge_hits]. rewrite !(K t1 t2), !(K t2 t1) by (assumption || (cbn; tauto)). reflexivity. }
  unfold intersection_two_triangles, dcollect. rewrite E. reflexivity.
Qed.

(** ... while on pairs of class 3 it never does. *)
Lemma L_C73_class_3 : forall N delaunay t1 t2, tris [t1] -> tris [t2] ->
  check_intersection_two_triangles N t1 t2 = Ok 3%Z -> intersection_two_triangles N delaunay t1 t2 <> Raise UnboundLocalError.
Proof.
  intros N delaunay t1 t2 TT1 TT2 C H. destruct (Forall_inv TT1) as [L1 G1]. destruct (Forall_inv TT2) as [L2 G2].
  assert (T1 : tri1 t1) by (split; assumption). assert (T2 : tri1 t2) by (split; assumption).
  destruct (L_C72_classes N t1 t2 TT1 TT2) as (k & Ek & _ & _ & K3 & _). rewrite C in Ek. injection Ek as <-. apply proj1 in K3. specialize (K3 eq_refl).
  destruct K3 as (_ & _ & X).
  unfold intersection_two_triangles in H. destruct (dcollect N t1 t2) as [[k c]|ex] eqn:Ec; cbn [bind] in H.
  - pose proof (dcollect_good N t1 t2 k c T1 T2 Ec) as Gc. destruct (dperp_space_spec c Gc) as (ps & Eps & Inc & _).
    destruct (Nat.leb 3 k); [|discriminate]. rewrite Eps in H. cbn [bind] in H. destruct (Nat.ltb 3 (length ps)); [|destruct (Nat.eqb (length ps) 3); discriminate].
    unfold triangulation_points in H.
    assert (Q : exists q, mapM (fun v => bind (dprojection3 v) (fun w => Ok (take2 N (dnumerical_vector N w)))) ps = Ok q).
    { assert (Gp : goods 6 ps) by (eapply goods_incl; eassumption). clear - Gp. induction Gp as [|v p Hv _ (q & IH)]; cbn [mapM]; [eauto|].
      destruct (wp_elim _ _ (dprojection3_spec v Hv)) as (w & -> & _). cbn [bind]. rewrite IH. cbn [bind]. eauto. }
    destruct Q as (q & Eq). rewrite Eq in H. cbn [bind] in H. destruct (delaunay q) as [l|]; [|discriminate].
    assert (Kk : forall l, goods 6 ps -> dkeep_simplices ps l <> Raise UnboundLocalError).
    { clear. intros l Gp. induction l as [|[[i j] m] l IH]; cbn [dkeep_simplices]; [discriminate|].
      destruct (pick3 ps (i, j, m)) as [t|e] eqn:Ep; cbn [bind].
      - apply pick3_spec in Ep. destruct (corners_at_tri ps _ t Gp Ep) as [[Lt Gt] _].
        destruct (wp_elim _ _ (triarea6_spec t Lt Gt)) as (v & -> & _). cbn [bind]. destruct (dkeep_simplices ps l); cbn [bind]; congruence.
      - revert Ep. unfold Model.IcoIntersect.pick3, get. destruct (nth_error ps i); cbn [bind]; [|congruence]. destruct (nth_error ps j); cbn [bind]; [|congruence].
        destruct (nth_error ps m); cbn [bind]; congruence. }
    specialize (Kk l (goods_incl _ _ _ Gc Inc)). destruct (dkeep_simplices ps l); cbn [bind] in H; congruence.
  - injection H as ->. unfold dcollect in Ec. destruct (dedge_hits N t1 t2 tedge_ix) as [h|e] eqn:Eh; cbn [bind] in Ec.
    + destruct h as [|p h].
      * pose proof (dedge_hits_In N t1 t2 [] T1 T2 Eh) as I. cbn [concat] in I.
        assert (Pt : forall s e (u v : vecs), tri1 u -> tri1 v -> edge_of s u -> edge_of e v -> dcheck_intersection_two_segment_numerical_6d_tau N s e = Ok true ->
          (exists c, In c tedge_ix /\ exists r, dedge_points N u v c = Ok r /\ pick2 u c = Ok s) -> exists x, dintersection_two_segment N s e = Ok (Some x)).
        { intros s e u v Tu Tv Hs He Hm (c & Hc & r & Er & Es). destruct (dedge_points_In N u v c r Tu Tv Hc Er) as (s' & Es' & _ & _ & J).
          rewrite Es in Es'. injection Es' as <-. exact (J e He Hm). }
        assert (Ok1 : forall c, In c tedge_ix -> exists r r', dedge_points N t1 t2 c = Ok r /\ dedge_points N t2 t1 c = Ok r').
        { intros c Hc. revert Eh Hc. generalize ([] : list vecs). generalize tedge_ix. clear. intros cs. induction cs as [|c' cs IH]; intros h H Hc; [destruct Hc|]; cbn [dedge_hits] in H; destruct Hc as [<-|Hc].
          - apply bind_Ok_inv in H as (o1 & E1 & H). apply bind_Ok_inv in H as (o2 & E2 & H). eauto.
          - apply bind_Ok_inv in H as (o1 & E1 & H). apply bind_Ok_inv in H as (o2 & E2 & H). apply bind_Ok_inv in H as (r & Er & H). exact (IH r Er Hc). }
        destruct X as [(s & e & Hs & He & Hm)|(s & e & Hs & He & Hm)].
        -- pose proof Hs as Hs'. apply (tedge_pick t1 s L1) in Hs' as (c & Hc & Es). destruct (Ok1 c Hc) as (r & r' & Er & Er').
           destruct (Pt s e t1 t2 T1 T2 Hs He Hm) as (x & Hx); [eauto|]. apply (proj2 (I x)). left. eauto.
        -- pose proof Hs as Hs'. apply (tedge_pick t2 s L2) in Hs' as (c & Hc & Es). destruct (Ok1 c Hc) as (r & r' & Er & Er').
           destruct (Pt s e t2 t1 T2 T1 Hs He Hm) as (x & Hx); [eauto|]. apply (proj2 (I x)). right. eauto.
      * destruct (dvertices_inside_ok N t1 t2 G1 T2) as (a & Ea). destruct (dvertices_inside_ok N t2 t1 G2 T1) as (b & Eb).
        rewrite Ea in Ec. cbn [bind] in Ec. rewrite Eb in Ec. discriminate.
    + injection Ec as ->.
      assert (Kp : forall u v c, tri1 u -> tri1 v -> In c tedge_ix -> dedge_points N u v c <> Raise UnboundLocalError).
      { clear. intros u v c [Lu Gu] [Lv Gv] Hc. unfold dedge_points. destruct (tedge_pick_ok u c Lu Hc) as (s & -> & Hs). rewrite pick3_id by exact Lv. cbn [bind].
        unfold dintersection_segment_surface.
        destruct (dsegsur_spec N s v (edge_l6 _ _ Hs (goods_l6 _ Gu)) (goods_l6 _ Gv) (proj2 Hs) Lv) as (b & -> & _). cbn [bind]. destruct b; [|discriminate].
        assert (Gs : goods 6 s) by exact (subseq_goods _ _ (proj1 Hs) Gu). destruct Hs as [_ Ls].
        destruct s as [|A [|B [|]]]; try discriminate Ls.
        assert (Ke : forall cs, incl cs tedge_ix -> segment_edges N [A;B] v cs <> Raise UnboundLocalError).
        { clear c Hc. induction cs as [|c cs IH]; intros Hi; cbn [segment_edges]; [discriminate|].
          destruct (tedge_pick_ok v c Lv) as (e & -> & He); [apply Hi; left; reflexivity|]. cbn [bind].
          assert (Ge : goods 6 e) by exact (subseq_goods _ _ (proj1 He) Gv). destruct He as [_ Le]. destruct e as [|C [|D [|]]]; try discriminate Le.
          pose proof (Forall_inv Gs) as GA. pose proof (Forall_inv (Forall_inv_tail Gs)) as GB. pose proof (Forall_inv Ge) as GC. pose proof (Forall_inv (Forall_inv_tail Ge)) as GD.
          assert (X : dintersection_two_segment N [A;B] [C;D] <> Raise UnboundLocalError).
          { destruct (segseg_ok N [A;B] [C;D] (goods_l6 _ Gs) (goods_l6 _ Ge) eq_refl eq_refl) as (x & Ex). destruct x.
            - pose proof (its_spec N A B C D GA GB GC GD Ex) as Is. cbv zeta in Is. destruct (Req_EM_T _ 0) in Is; [rewrite Is; discriminate|].
              destruct Is as (p & -> & _). discriminate.
            - unfold dintersection_two_segment. rewrite Ex. discriminate. }
          destruct (dintersection_two_segment N [A;B] [C;D]) as [o|ex]; cbn [bind]; [|congruence].
          assert (Y : segment_edges N [A;B] v cs <> Raise UnboundLocalError) by (apply IH; intros z Hz; apply Hi; right; exact Hz).
          destruct (segment_edges N [A;B] v cs); cbn [bind]; congruence. }
        apply Ke. intros z Hz. exact Hz. }
      assert (Kh : forall cs, incl cs tedge_ix -> dedge_hits N t1 t2 cs <> Raise UnboundLocalError).
      { clear - Kp T1 T2. induction cs as [|c cs IH]; intros Hi; cbn [dedge_hits]; [discriminate|].
        assert (Hc : In c tedge_ix) by (apply Hi; left; reflexivity).
        pose proof (Kp t1 t2 c T1 T2 Hc) as X1. pose proof (Kp t2 t1 c T2 T1 Hc) as X2.
        destruct (dedge_points N t1 t2 c); cbn [bind]; [|congruence]. destruct (dedge_points N t2 t1 c); cbn [bind]; [|congruence].
        assert (Y : dedge_hits N t1 t2 cs <> Raise UnboundLocalError) by (apply IH; intros z Hz; apply Hi; right; exact Hz).
        destruct (dedge_hits N t1 t2 cs); cbn [bind]; congruence. }
      exact (Kh tedge_ix (fun z Hz => Hz) Eh).
Qed.

(** In binary64: three distinct points, one triangle; four points, the triangulation
    decides; triangles that do not meet. *)
Example E_C73_ex : tris [triA] /\ tris [triB] /\ tris [triF] /\
  intersection_two_triangles Bnum (fun _ => None) triA triB = Ok (Some [[q 1 1; q 1 3; q 3 1]]) /\
  intersection_two_triangles Bnum (fun _ => None) triA triC = Ok None /\
  intersection_two_triangles Bnum (fun _ => Some [(0,1,2); (0,2,3)]%nat) triA triC =
    Ok (Some [[x2; pl (T 1 0 4) (T 0 0 1); q 1 1]; [x2; q 1 1; pl (T 5 0 6) (T 1 0 6)]]) /\
  intersection_two_triangles Bnum (fun _ => None) triA triF = Raise UnboundLocalError.
Proof. split; [gd|]. split; [gd|]. split; [gd|]. vmall. Qed.

(** C75: the subtraction of two objects always raises NameError; arguments that are not
    4-d give None instead. *)
Lemma L_C75_subtraction : forall rest a1 a2,
  match a1, a2 with
  | A4 _, A4 _ => dsubtraction None rest a1 a2 = Raise NameError
  | _, _ => dsubtraction None rest a1 a2 = Ok None
  end.
Proof. intros rest a1 a2. destruct a1; try reflexivity; destruct a2; reflexivity. Qed.

Lemma unique_index_any {K} cmp (ks : list K) : (forall i, In i (unique_index cmp ks) -> (i < length ks)%nat) /\ (ks <> [] -> unique_index cmp ks <> []).
Proof.
  unfold unique_index.
  assert (Ins : forall x l y, In y (insert cmp x l) <-> y = x \/ In y l).
  { intros x l. induction l as [|z l IH]; intros y; cbn [insert]; [cbn; split; [intros [H|[]]; auto|intros [H|[]]; auto]|].
    destruct (cmp (fst x) (fst z)); cbn [In]; rewrite ?IH; cbn [In]; intuition auto. }
  assert (So : forall l y, In y (sort cmp l) <-> In y l).
  { induction l as [|x l IH]; intros y; cbn [sort fold_right]; [tauto|]. rewrite Ins. fold (sort cmp l). rewrite IH. cbn. intuition auto. }
  assert (Ru : forall l p y, In y (runs cmp p l) -> In y l).
  { induction l as [|x l IH]; intros p y H; cbn [runs] in H; [exact H|]. destruct (cmp p (fst x)); cbn in H |- *; [right; eapply IH; exact H| |]; (destruct H as [->|H]; [auto|right; eapply IH; exact H]). }
  split.
  - intros i Hi. apply in_map_iff in Hi as ([k j] & <- & H). assert (I : In (k, j) (sort cmp (indexed ks))).
    { unfold heads in H. destruct (sort cmp (indexed ks)) as [|x l]; [exact H|]. destruct H as [->|H]; [left; reflexivity|right; eapply Ru; exact H]. }
    apply (proj1 (So _ _)) in I. apply in_combine_r in I. apply in_seq in I. cbn [snd]. lia.
  - intros N. destruct ks as [|k ks]; [congruence|].
    assert (I : In (k, 0%nat) (sort cmp (indexed (k :: ks)))) by (apply So; left; reflexivity).
    destruct (sort cmp (indexed (k :: ks))); [destruct I|discriminate].
Qed.
Lemma dunique_edges_ok N o : tris o -> exists r, dgenerator_unique_edges N 3 o = Ok r /\ (o <> [] -> r <> []) /\ Forall (fun e => length e = 2%nat /\ goods 6 e) r.
Proof.
  intros T. unfold dgenerator_unique_edges, dgenerator_all_edges. cbn [Nat.eqb].
  assert (E : mapM get_triangle_edge o = Ok (map tri_edges o)).
  { clear -T. induction T as [|t o [L _] _ IH]; [reflexivity|]. cbn [mapM map]. destruct t as [|a [|b [|c [|]]]]; try discriminate L. cbn -[mapM]. rewrite IH. reflexivity. }
  rewrite E. cbn [bind notNone]. set (es := concat (map tri_edges o)).
  assert (Ge : Forall (fun e => length e = 2%nat /\ goods 6 e) es).
  { apply Forall_forall. intros e He. apply in_concat in He as (x & Hx & He). apply in_map_iff in Hx as (t & <- & Ht).
    unfold tris in T. rewrite Forall_forall in T. destruct (T t Ht) as [L G]. destruct t as [|a [|b [|c [|]]]]; try discriminate L.
    destruct He as [<-|[<-|[<-|[]]]]; (split; [reflexivity|]); eapply goods_incl; try exact G; intros x Hx; cbn in *; tauto. }
  assert (A : exists a, mapM (dcentre N) es = Ok a /\ length a = length es).
  { clear -Ge. induction Ge as [|e es [Le Ge] _ (a & IH & La)]; cbn [mapM]; [exists []; auto|]. unfold dcentre at 1.
    assert (Ne : e <> []) by (intros ->; discriminate).
    destruct (wp_elim _ _ (centroid_spec dode_arith e Ne Ge)) as (m & Em & Cm & Vm). fold dcentroid in Em. rewrite Em. cbn [bind].
    assert (Lm : length m = 6%nat).
    { rewrite <- (vals_length SIN), Vm. apply mean_length. rewrite Forall_map. eapply Forall_impl; [|exact Ge]. intros v [_ L]. rewrite vals_length. exact L. }
    destruct (dinternal_ok N m Lm) as (p & ->). cbn [bind]. rewrite IH. cbn [bind]. exists (p :: a). cbn. auto. }
  destruct A as (a & -> & La). cbn [bind]. destruct (unique_index_any (Model.IcoSurface.cmp_pt N) a) as [B Ne].
  assert (M : exists r, mapM (get es) (unique_index (Model.IcoSurface.cmp_pt N) a) = Ok r /\ length r = length (unique_index (Model.IcoSurface.cmp_pt N) a)).
  { rewrite La in B. clear -B. induction (unique_index (Model.IcoSurface.cmp_pt N) a) as [|i is IH]; cbn [mapM]; [exists []; auto|].
    destruct IH as (r & Er & Lr); [intros j Hj; apply B; right; exact Hj|].
    unfold get at 1. destruct (nth_error es i) as [e|] eqn:Ei; [|apply nth_error_None in Ei; specialize (B i (or_introl eq_refl)); lia].
    cbn [bind]. rewrite Er. cbn [bind]. exists (e :: r). cbn. auto. }
  destruct M as (r & Er & Lr). exists r. split; [exact Er|]. split.
  - intros No -> . destruct o as [|t o]; [congruence|]. destruct (Forall_inv T) as [Lt _]. destruct t as [|x [|y [|z [|]]]]; try discriminate Lt.
    apply Ne; [intros ->; discriminate La|]. destruct (unique_index (Model.IcoSurface.cmp_pt N) a); [reflexivity|discriminate].
  - pose proof (mapM_get_incl _ _ _ Er) as I. apply Forall_forall. intros e He. rewrite Forall_forall in Ge. apply Ge, I, He.
Qed.

(** intersection_convex of two objects with at least one triangle each raises NameError. *)
Lemma L_C75_convex : forall N rest o1 o2, tris o1 -> tris o2 -> o1 <> [] -> o2 <> [] ->
  dintersection_convex N None rest (A4 o1) (A4 o2) = Raise NameError.
Proof.
  intros N rest o1 o2 T1 T2 N1 N2. cbn [dintersection_convex]. unfold dconvex_vertices.
  destruct (dunique_edges_ok N o1 T1) as (e1 & -> & Ne & Ge). cbn [bind]. specialize (Ne N1).
  destruct (dunique_edges_ok N o2 T2) as (e2 & -> & _). cbn [bind].
  assert (Gc : goods 6 (concat e1)).
  { apply Forall_forall. intros v Hv. apply in_concat in Hv as (e & He & Hv). rewrite Forall_forall in Ge. destruct (Ge e He) as [_ G]. exact (goods_in 6 _ _ G Hv). }
  destruct (dperp_space_spec_flat (concat e1) (A4 e1) (or_intror (ex_intro _ e1 (conj eq_refl eq_refl))) Gc) as (vs & -> & _ & _ & SS). cbn [bind].
  destruct vs as [|v vs].
  - exfalso. destruct e1 as [|e e1]; [congruence|]. destruct (Forall_inv Ge) as [Le _]. destruct e as [|x e]; [discriminate|].
    apply (proj2 (SS (dppoint x))). left. reflexivity.
  - destruct o2 as [|t o2]; [congruence|]. reflexivity.
Qed.

(** C75, arguments that are not 4-d. *)
Lemma L_C75_convex_ndim : forall N inside_tt rest a1 a2, (forall o, a1 <> A4 o) \/ (forall o, a2 <> A4 o) ->
  dintersection_convex N inside_tt rest a1 a2 = Ok None.
Proof. intros N inside_tt rest a1 a2 [H|H]; destruct a1; try reflexivity; destruct a2; try reflexivity; exfalso; eapply H; reflexivity. Qed.

Example E_C75_ex : tris [triA] /\ tris [triB] /\ dintersection_convex Bnum None (fun _ _ _ => Ok None) (A4 [triA]) (A4 [triB]) = Raise NameError /\
  dintersection_convex Bnum None (fun _ _ _ => Ok None) (A3 triA) (A4 [triB]) = Ok None.
Proof. split; [gd|]. split; [gd|]. split; vmr. Qed.
