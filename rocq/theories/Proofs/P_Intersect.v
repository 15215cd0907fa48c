(** Intersection and subtraction of tetrahedra and objects (ico2/intsct.py): C32-C37, C56.
    [N] is any arithmetic for the floating-point tests (binary64 is one instance, [Bnum];
    [Rnum] is exact); the Delaunay triangulation and the random samples are arbitrary. *)
From Coq Require Import Reals List ZArith Lia Lra Bool.
From Verif Require Import Base.Res Model.Tau Model.Arr Model.Num Model.IcoNumeric Model.IcoMath1 Model.IcoVolume Model.IcoIntersect
  Spec.Value Spec.RVec Spec.Shape Spec.Geometry Spec.IcoSpec Spec.Sets Spec.Space Spec.Tetra Spec.Samples.
Import ListNotations.
Local Open Scope R_scope.

From Verif Require Import Model.IcoDedup Proofs.ResLemmas Proofs.ScalarLemmas Proofs.ValueLemmas Proofs.VectorLemmas Proofs.VectorLemmas2 Proofs.RVecLemmas Proofs.MeanLemmas Proofs.IcoVolumeLemmas Proofs.DedupLemmas
  Proofs.Irrational Proofs.NumLemmas Proofs.CoplanarLemmas Proofs.IntersectLemmas Proofs.ObjLemmas Proofs.P_Numeric.

Ltac gd := unfold tets, goodo, goods, good, wfv, wf; cbn; repeat (apply Forall_cons || apply Forall_nil || split || discriminate || reflexivity).

(** C32, any arithmetic: whenever the numerical test reports a hit and line and plane
    are not parallel, the result is the canonical vector A+t(B-A), where t is the only
    parameter for which the perpendicular projection lies in the plane of the triangle. *)
Lemma L_C32_point : forall N A B C D E u v t, goods 6 [A; B; C; D; E] ->
  check_intersection_segment_surface_numerical_6d_tau N [A; B] [C; D; E] = Ok true ->
  triple3 (sub3 (pp B) (pp A)) (sub3 (pp D) (pp C)) (sub3 (pp E) (pp C)) <> 0 ->
  add3 (pp A) (scale3 t (sub3 (pp B) (pp A))) = add3 (pp C) (add3 (scale3 u (sub3 (pp D) (pp C))) (scale3 v (sub3 (pp E) (pp C)))) ->
  exists p, intersection_segment_surface N [A; B] [C; D; E] = Ok (Some p) /\ cgood 6 p /\
    vals TAU p = vadd (vals TAU A) (vscale t (vsub (vals TAU B) (vals TAU A))) /\
    pp p = add3 (pp A) (scale3 t (sub3 (pp B) (pp A))).
Proof.
  intros N A B C D E u v t G Ht Hd Hs. unfold goods in G. rewrite Forall_forall in G.
  assert (GA : good 6 A) by (apply G; cbn; auto). assert (GB : good 6 B) by (apply G; cbn; auto).
  pose proof (iss_spec N A B C D E GA GB (G C ltac:(cbn; auto)) (G D ltac:(cbn; auto)) (G E ltac:(cbn; auto 10)) Ht) as K.
  cbv zeta in K. rewrite triple_bunbo in Hd.
  destruct (Req_EM_T _ 0) as [E0|E0] in K; [exfalso; apply Hd; rewrite E0; ring|].
  rewrite <- (mt_unique _ _ _ _ _ u v t E0 Hs) in K. destruct K as (p & Ep & Cp & Vp). exists p.
  split; [exact Ep|]. split; [exact Cp|]. split; [exact Vp|].
  assert (LA : length (vals TAU A) = 6%nat) by (rewrite vals_length; apply GA).
  assert (LB : length (vals TAU B) = 6%nat) by (rewrite vals_length; apply GB).
  assert (Ls : length (vsub (vals TAU B) (vals TAU A)) = 6%nat) by (rewrite vsub_length; lia).
  rewrite !pp_tri3, Vp. rewrite (proj2 (perp_affine _ _ t LA Ls)), (proj1 (perp_affine _ _ 0 LB LA)). reflexivity.
Qed.

(** ... a positive test on an exactly parallel pair (possible only through rounding) raises. *)
Lemma L_C32_parallel : forall N A B C D E, goods 6 [A; B; C; D; E] ->
  check_intersection_segment_surface_numerical_6d_tau N [A; B] [C; D; E] = Ok true ->
  triple3 (sub3 (pp B) (pp A)) (sub3 (pp D) (pp C)) (sub3 (pp E) (pp C)) = 0 ->
  intersection_segment_surface N [A; B] [C; D; E] = Raise TypeError.
Proof.
  intros N A B C D E G Ht Hd. unfold goods in G. rewrite Forall_forall in G.
  pose proof (iss_spec N A B C D E (G A ltac:(cbn; auto)) (G B ltac:(cbn; auto)) (G C ltac:(cbn; auto)) (G D ltac:(cbn; auto)) (G E ltac:(cbn; auto 10)) Ht) as K.
  cbv zeta in K. rewrite triple_bunbo in Hd. destruct (Req_EM_T _ 0) as [E0|E0] in K; [exact K|]. exfalso. apply E0. lra.
Qed.

(** In exact arithmetic it returns None exactly when the test is negative; otherwise a
    point whose projection lies on the segment and in the triangle up to 1e-6 in the
    affine coordinates, and exactly on the segment's line and in the triangle's plane. *)
Lemma L_C32_exact : forall A B C D E, goods 6 [A; B; C; D; E] ->
  exists o, intersection_segment_surface Rnum [A; B] [C; D; E] = Ok o /\
  match o with
  | None => check_intersection_segment_surface_numerical_6d_tau Rnum [A; B] [C; D; E] = Ok false
  | Some p => check_intersection_segment_surface_numerical_6d_tau Rnum [A; B] [C; D; E] = Ok true /\
      cgood 6 p /\ exists t u v, vals TAU p = vadd (vals TAU A) (vscale t (vsub (vals TAU B) (vals TAU A))) /\
      pp p = add3 (pp A) (scale3 t (sub3 (pp B) (pp A))) /\
      pp p = add3 (pp C) (add3 (scale3 u (sub3 (pp D) (pp C))) (scale3 v (sub3 (pp E) (pp C)))) /\
      - (1/1000000) <= t <= 1 + 1/1000000 /\ - (1/1000000) <= u <= 1 + 1/1000000 /\ - (1/1000000) <= v /\ u + v <= 1 + 1/1000000
  end.
Proof.
  intros A B C D E G. assert (Gs : goods 6 [A;B]) by (eapply goods_incl; [exact G|intros x [<-|[<-|[]]]; cbn; auto]).
  assert (Gf : goods 6 [C;D;E]) by (eapply goods_incl; [exact G|intros x [<-|[<-|[<-|[]]]]; cbn; auto 10]).
  destruct (segsur_ok Rnum [A;B] [C;D;E] (goods_l6 _ Gs) (goods_l6 _ Gf) eq_refl eq_refl) as (b & Eb).
  destruct b; [|exists None; split; [unfold intersection_segment_surface; rewrite Eb; reflexivity|exact Eb]].
  pose proof Eb as Eb'. rewrite L_C31_tau in Eb' by (apply goods_l6; assumption). cbn [map] in Eb'.
  apply L_C31_iff in Eb' as (Hd & u & v & t & Hs & Hu & Hv & Huv & Ht).
  destruct (L_C32_point Rnum A B C D E u v t G Eb) as (p & Ep & Cp & Vp & Pp); [|exact Hs|].
  { intros E0. rewrite E0, Rabs_R0 in Hd. lra. }
  exists (Some p). split; [exact Ep|]. split; [exact Eb|]. split; [exact Cp|]. exists t, u, v.
  split; [exact Vp|]. split; [exact Pp|]. split; [rewrite Pp; exact Hs|]. tauto.
Qed.

(** With t in [0,1] the point is on the closed segment. *)
Lemma L_C32_on_segment : forall A B p t, 0 <= t <= 1 -> pp p = add3 (pp A) (scale3 t (sub3 (pp B) (pp A))) ->
  hull [pp A; pp B] (pp p).
Proof.
  intros A B p t Ht ->. exists [1 - t; t]. split.
  - split; [reflexivity|]. split; [cbn; lra|]. cbn [comb]. unfold o3. generalize (pp A) (pp B). intros a b. p3 a; p3 b. cbn. apply f_equal2; [apply f_equal2|]; ring.
  - repeat (apply Forall_cons; [lra|]). apply Forall_nil.
Qed.

(** In binary64: the segment from 0 to x1+x2+x4 meets the triangle x1,x2,x4 at 1/3. *)
Example E_C32_ex : goods 6 [o6; iv [1;1;0;1;0;0]%Z; x1; x2; x4] /\
  check_intersection_segment_surface_numerical_6d_tau Bnum [o6; iv [1;1;0;1;0;0]%Z] [x1; x2; x4] = Ok true /\
  triple3 (sub3 (pp (iv [1;1;0;1;0;0]%Z)) (pp o6)) (sub3 (pp x2) (pp x1)) (sub3 (pp x4) (pp x1)) <> 0 /\
  add3 (pp o6) (scale3 (1/3) (sub3 (pp (iv [1;1;0;1;0;0]%Z)) (pp o6))) =
    add3 (pp x1) (add3 (scale3 (1/3) (sub3 (pp x2) (pp x1))) (scale3 (1/3) (sub3 (pp x4) (pp x1)))) /\
  intersection_segment_surface Bnum [o6; iv [1;1;0;1;0;0]%Z] [x1; x2; x4] = Ok (Some [T 1 0 3; T 1 0 3; T 0 0 1; T 1 0 3; T 0 0 1; T 0 0 1]).
Proof.
  split; [gd|]. split; [vm_compute; reflexivity|]. split; [|split; [|vm_compute; reflexivity]].
  - unfold pp, iv, o6, x1, x2, x4. cbn. unfold val, triple3, dot3, cross3, sub3. cbn. unfold Rdiv. rewrite Rinv_1.
    pose proof TAU_sq as S. pose proof TAU_bounds as B. intros H. 
    assert (K : TAU * TAU * TAU = 2 * TAU + 1) by (replace (TAU*TAU*TAU) with (TAU * (TAU*TAU)) by ring; rewrite S; ring_simplify; replace (TAU^2) with (TAU*TAU) by ring; rewrite S; ring).
    ring_simplify in H. replace (TAU^3) with (TAU*TAU*TAU) in H by ring. replace (TAU^2) with (TAU*TAU) in H by ring. rewrite ?K, ?S in H. lra.
  - unfold pp, iv, o6, x1, x2, x4. cbn. unfold val. cbn. unfold add3, scale3, sub3. apply f_equal2; [apply f_equal2|]; field.
Qed.

(** C33: the four classes, for any arithmetic; the function never raises. *)
Lemma L_C33_classes : forall N t1 t2, length t1 = 4%nat -> goods 6 t1 -> length t2 = 4%nat -> goods 6 t2 ->
  let in1 := forall v, In v t1 -> inside_outside_tetrahedron_tau N v t2 = Ok true in
  let in2 := forall v, In v t2 -> inside_outside_tetrahedron_tau N v t1 = Ok true in
  let meets := fun s f => check_intersection_segment_surface_numerical_6d_tau N s f = Ok true in
  exists k, check_intersection_two_tetrahedron_4 N t1 t2 = Ok k /\
    (k = 1%Z <-> in1) /\ (k = 2%Z <-> ~ in1 /\ in2) /\
    (k = 3%Z <-> ~ in1 /\ ~ in2 /\ (crosses meets t1 t2 \/ crosses meets t2 t1)) /\
    (k = 0%Z <-> ~ in1 /\ ~ in2 /\ ~ crosses meets t1 t2 /\ ~ crosses meets t2 t1).
Proof.
  intros N t1 t2 L1 G1 L2 G2 in1 in2 meets.
  destruct (classify_spec N t1 t2 (goods_l6 _ G1) (goods_l6 _ G2) L1 L2) as [[H1 E]|[(H1 & H2 & E)|[(H1 & H2 & H3 & E)|(H1 & H2 & H3 & E)]]];
    fold in1 in H1; try (fold in2 in H2).
  - exists 1%Z. split; [exact E|]. split; [tauto|]. split; [split; [discriminate|tauto]|]. split; (split; [discriminate|tauto]).
  - exists 2%Z. split; [exact E|]. split; [split; [discriminate|tauto]|]. split; [tauto|]. split; (split; [discriminate|tauto]).
  - exists 3%Z. split; [exact E|]. split; [split; [discriminate|tauto]|]. split; [split; [discriminate|tauto]|]. fold meets in H3. split; [tauto|]. split; [discriminate|tauto].
  - exists 0%Z. split; [exact E|]. split; [split; [discriminate|tauto]|]. split; [split; [discriminate|tauto]|]. fold meets in H3. split; [split; [discriminate|tauto]|tauto].
Qed.

(** In exact arithmetic: if an edge of one tetrahedron has a point in common with a face
    of the other, and the two are not nearly parallel, the class is not 0. *)
Lemma L_C33_crossing_not_0 : forall t1 t2 s f p, length t1 = 4%nat -> goods 6 t1 -> length t2 = 4%nat -> goods 6 t2 ->
  (edge_of s t1 /\ face_of f t2) \/ (edge_of s t2 /\ face_of f t1) ->
  hull (map pp s) p -> hull (map pp f) p ->
  (forall a b c d e, s = [a; b] -> f = [c; d; e] -> 1/1000000 <= Rabs (triple3 (sub3 (pp b) (pp a)) (sub3 (pp d) (pp c)) (sub3 (pp e) (pp c)))) ->
  exists k, check_intersection_two_tetrahedron_4 Rnum t1 t2 = Ok k /\ (k = 1 \/ k = 2 \/ k = 3)%Z.
Proof.
  intros t1 t2 s f p L1 G1 L2 G2 H Hs Hf Hd.
  assert (Gs : goods 6 s) by (destruct H as [[[H _] _]|[[H _] _]]; eapply subseq_goods; eassumption).
  assert (Gf : goods 6 f) by (destruct H as [[_ [H _]]|[_ [H _]]]; eapply subseq_goods; eassumption).
  assert (Ls : length s = 2%nat) by (destruct H as [[[_ H] _]|[[_ H] _]]; exact H).
  assert (Lf : length f = 3%nat) by (destruct H as [[_ [_ H]]|[_ [_ H]]]; exact H).
  destruct s as [|a [|b [|]]]; try discriminate Ls. destruct f as [|c [|d [|e [|]]]]; try discriminate Lf.
  assert (M : check_intersection_segment_surface_numerical_6d_tau Rnum [a;b] [c;d;e] = Ok true).
  { rewrite L_C31_tau by (apply goods_l6; assumption). cbn [map]. eapply L_C31_never_missed; [exact Hs|exact Hf|]. apply (Hd _ _ _ _ _ eq_refl eq_refl). }
  destruct (L_C33_classes Rnum t1 t2 L1 G1 L2 G2) as (k & E & H1 & H2 & H3 & H0). exists k. split; [exact E|].
  destruct (classify_spec Rnum t1 t2 (goods_l6 _ G1) (goods_l6 _ G2) L1 L2) as [[_ E']|[(_ & _ & E')|[(_ & _ & _ & E')|(_ & _ & N & _)]]];
    try (rewrite E in E'; injection E' as ->; tauto).
  exfalso. apply N. destruct H as [[He Hf']|[He Hf']]; [left|right]; exists [a;b], [c;d;e]; auto.
Qed.

Example E_C33_ex : length tetA = 4%nat /\ goods 6 tetA /\ length tetB = 4%nat /\ goods 6 tetB /\
  check_intersection_two_tetrahedron_4 Bnum tetA tetB = Ok 3%Z.
Proof. repeat match goal with |- _ /\ _ => split end; try (vm_compute; reflexivity); gd. Qed.

(** C34: the distance test in exact arithmetic never discards a tetrahedron that has a
    point in common with a ball around the given centre. *)
Lemma L_C34_ball : forall t c r p, t <> [] -> goods 6 t -> good 6 c ->
  hull (map pp t) p -> dist3 p (pp c) <= r ->
  rough_check_intersection_tetrahedron_obj Rnum t c r = Ok true.
Proof.
  intros t c r p Ht G Gc Hp Hr. unfold rough_check_intersection_tetrahedron_obj.
  destruct (wp_elim _ _ (centroid_spec ico_arith t Ht G)) as (m & Em & Cm & Vm). fold centroid in Em. rewrite Em. cbn [bind].
  assert (Gm : good 6 m).
  { apply good_canon; [exact Cm|]. rewrite <- (vals_length TAU), Vm. apply mean_length. rewrite Forall_map. eapply Forall_impl; [|exact G].
    intros v [_ L]. rewrite vals_length. exact L. }
  unfold ball_radius. destruct (ball_radius_R t (A3 t) m (or_introl eq_refl) G Gm) as (b & -> & _ & Hb & _). cbn [bind].
  rewrite distance_R by assumption. cbn [bind]. apply (f_equal (@Ok bool)). toR. apply Rleb_true.
  pose proof (hull_ball _ p (pp m) b Hp) as Hm. rewrite Forall_map, Forall_forall in Hm. specialize (Hm Hb).
  pose proof (dist3_triangle (pp m) p (pp c)) as T. rewrite (dist3_sym (pp m) p) in T. lra.
Qed.

(** The radius computed for an object is the largest distance of a vertex from the
    centre, so the ball contains the whole object ... *)
Lemma L_C34_radius : forall o c, goodo 6 o -> good 6 c -> exists r, ball_radius_obj Rnum (A4 o) c = Ok r /\
  (forall t p, In t o -> hull (map pp t) p -> dist3 p (pp c) <= r) /\
  (r = 0 \/ exists t v, In t o /\ In v t /\ r = dist3 (pp v) (pp c)).
Proof.
  intros o c Go Gc. assert (G : goods 6 (concat o)).
  { apply Forall_forall. intros v Hv. apply in_concat in Hv as (t & Ht & Hv). unfold goodo in Go. rewrite Forall_forall in Go. specialize (Go t Ht).
    unfold goods in Go. rewrite Forall_forall in Go. auto. }
  destruct (ball_radius_R (concat o) (A4 o) c) as (r & E & _ & Hr & Ha); [right; eauto|exact G|exact Gc|].
  exists r. split; [exact E|]. split.
  - intros t p Ht Hp. apply (hull_ball _ p (pp c) r Hp). rewrite Forall_map, Forall_forall. intros v Hv. apply Hr, in_concat. eauto.
  - destruct Ha as [->|(v & Hv & ->)]; [left; reflexivity|right]. apply in_concat in Hv as (t & Ht & Hv). eauto.
Qed.

(** ... and a tetrahedron that has a point in common with a tetrahedron of the object
    passes the test with the object's centroid and radius. *)
Lemma L_C34_never_discards : forall t o t2 p, t <> [] -> goods 6 t -> tets o -> In t2 o ->
  hull (map pp t) p -> hull (map pp t2) p ->
  exists c r, centroid_obj o = Ok c /\ ball_radius_obj Rnum (A4 o) c = Ok r /\
    rough_check_intersection_tetrahedron_obj Rnum t c r = Ok true.
Proof.
  intros t o t2 p Ht G To Hin Hp Hp2.
  assert (Ne : o <> []) by (intros ->; destruct Hin).
  assert (To' : Forall (fun t => t <> [] /\ goods 6 t) o).
  { eapply Forall_impl; [|exact To]. intros x [L Gx]. split; [|exact Gx]. intros ->. discriminate. }
  destruct (wp_elim _ _ (centroid_obj_spec ico_arith o Ne To')) as (c & Ec & Cc & Vc). fold centroid_obj in Ec.
  assert (Gc : good 6 c).
  { apply good_canon; [exact Cc|]. rewrite <- (vals_length TAU), Vc. apply mean_length. rewrite Forall_map. eapply Forall_impl; [|exact To].
    intros x [_ Gx]. apply mean_length. rewrite Forall_map. eapply Forall_impl; [|exact Gx]. intros v [_ L]. rewrite vals_length. exact L. }
  destruct (L_C34_radius o c (tets_goodo _ To) Gc) as (r & Er & Hr & _). exists c, r. split; [exact Ec|]. split; [exact Er|].
  eapply L_C34_ball; try eassumption. eapply Hr; eassumption.
Qed.

Example E_C34_ex : tetA <> [] /\ goods 6 tetA /\ tets [tetC; tetB] /\ In tetB [tetC; tetB] /\
  hull (map pp tetA) (pp x1) /\ hull (map pp tetB) (pp x1).
Proof.
  split; [discriminate|]. split; [gd|]. split; [gd|]. split; [cbn; auto|].
  unfold tetA, tetB. cbn [map]. generalize (pp o6) (pp x1) (pp x2) (pp x4) (pp x6). intros a b c d e. split; exists [0;1;0;0];
    (split; [split; [reflexivity|split; [cbn; lra|]]|repeat (apply Forall_cons; [lra|]); apply Forall_nil]); cbn [comb]; unfold o3;
    p3 a; p3 b; p3 c; p3 d; p3 e; cbn; apply f_equal2; try apply f_equal2; ring.
Qed.

(** C37: what tetrahedralization_points keeps.  [l]: the simplices of the triangulation. *)
Lemma L_C37_pieces : forall N delaunay p r, goods 6 p -> tetrahedralization_points N delaunay p = Ok r ->
  exists q l ts, delaunay q = Some l /\ Forall2 (vertices_at p) l ts /\
   match r with
   | None => Forall (fun t => pvol t = 0) ts
   | Some o => o <> [] /\ subseq o ts /\ (forall t, In t o <-> In t ts /\ pvol t <> 0) /\ Forall (fun t => incl t p) o
   end.
Proof.
  intros N delaunay p r G H. unfold tetrahedralization_points in H. destruct p as [|p0 p']; [discriminate|]. set (p := p0 :: p') in *.
  apply bind_Ok_inv in H as (q & Eq & H). destruct (delaunay q) as [l|] eqn:Ed; [|discriminate].
  apply bind_Ok_inv in H as (o & Eo & H). injection H as <-.
  destruct (keep_spec p l o G Eo) as (ts & F & S & I). exists q, l, ts. split; [exact Ed|]. split; [exact F|].
  destruct o as [|t o].
  - apply Forall_forall. intros t Ht. destruct (Req_dec (pvol t) 0) as [E|E]; [exact E|]. exfalso. apply (proj2 (I t)). auto.
  - split; [discriminate|]. split; [exact S|]. split; [exact I|]. apply Forall_forall. intros t' Ht'. apply I in Ht' as [Ht' _].
    clear - F G Ht'. induction F as [|s x l ts H _ IH]; [destruct Ht'|]. destruct Ht' as [<-|Ht']; [|auto]. apply (vertices_at_tet p s x G H).
Qed.

(** It raises only if there are no points, the triangulation fails or names a missing point. *)
Lemma L_C37_raises : forall N delaunay p, goods 6 p -> p <> [] ->
  (forall q, length q = length p -> exists l ts, delaunay q = Some l /\ Forall2 (vertices_at p) l ts) ->
  exists r, tetrahedralization_points N delaunay p = Ok r.
Proof.
  intros N delaunay p G Np D. unfold tetrahedralization_points. destruct p as [|p0 p']; [congruence|]. set (p := p0 :: p') in *.
  assert (Q : exists q, mapM (fun v => bind (projection3 v) (fun w => Ok (numerical_vector N w))) p = Ok q).
  { clearbody p. clear - G. induction G as [|v p Hv _ (q & IH)]; cbn [mapM]; [eauto|].
    destruct (wp_elim _ _ (Proofs.IcoProj.projection3_spec v Hv)) as (w & -> & _). cbn [bind]. rewrite IH. cbn [bind]. eauto. }
  destruct Q as (q & Eq). rewrite Eq. cbn [bind]. destruct (D q) as (l & ts & -> & F).
  { eapply mapM_length; exact Eq. }
  destruct (keep_ok p l ts G F) as (o & ->). cbn [bind]. eauto.
Qed.

(** A flat simplex is dropped, the other kept. *)
Example E_C37_ex : goods 6 tetA /\
  tetrahedralization_points Bnum (fun _ => Some [(0,1,2,3); (0,0,1,2)]%nat) tetA = Ok (Some [tetA]) /\
  tetrahedralization_points Bnum (fun _ => Some [(0,0,1,2)]%nat) tetA = Ok None /\
  vertices_at tetA (0,1,2,3)%nat tetA.
Proof. split; [gd|]. split; [vm_compute; reflexivity|]. split; [vm_compute; reflexivity|]. exists o6, x1, x2, x4. repeat split; reflexivity. Qed.

(** C35: the result is None or a non-empty list of tetrahedra whose vertices are
    admissible points.  ps: the admissible points without repetitions in
    perpendicular space. *)
Lemma L_C35_result : forall N delaunay draws t1 t2 r, length t1 = 4%nat -> goods 6 t1 -> length t2 = 4%nat -> goods 6 t2 ->
  intersection_two_tetrahedron_4 N delaunay draws t1 t2 = Ok r ->
  let adm := admissible (fun v t => inside_outside_tetrahedron_tau N v t = Ok true)
               (fun s f v => intersection_segment_surface N s f = Ok (Some v)) t1 t2 in
  exists ps, (forall v, In v ps -> adm v) /\ NoDup (map ppoint ps) /\ (forall v, adm v -> In (ppoint v) (map ppoint ps)) /\ goods 6 ps /\
   match r with
   | None => (length ps < 4)%nat \/ coplanar_check_numeric_tau N draws ps = Ok (Some true)
   | Some o => (4 <= length ps)%nat /\ coplanar_check_numeric_tau N draws ps <> Ok (Some true) /\
       o <> [] /\ (forall t, In t o -> length t = 4%nat /\ forall v, In v t -> adm v) /\
       (length ps = 4%nat -> o = [ps]) /\
       ((4 < length ps)%nat -> tetrahedralization_points N delaunay ps = Ok (Some o))
   end.
Proof.
  intros N delaunay draws t1 t2 r L1 G1 L2 G2 H adm. unfold intersection_two_tetrahedron_4 in H.
  assert (T1 : tet4 t1) by (split; assumption). assert (T2 : tet4 t2) by (split; assumption).
  apply bind_Ok_inv in H as (c & Ec & H). pose proof (collect_In N t1 t2 c T1 T2 Ec) as I. fold adm in I. pose proof (collect_good N t1 t2 c T1 T2 Ec) as Gc.
  destruct (perp_space_spec c Gc) as (ps & Eps & Inc & ND & SS). rewrite Eps in H. exists ps.
  assert (Gp : goods 6 ps) by (eapply goods_incl; eassumption).
  split; [intros v Hv; apply I, Inc, Hv|]. split; [exact ND|]. split; [intros v Hv; apply SS, in_map, I, Hv|]. split; [exact Gp|].
  destruct (Nat.leb_spec 4 (length c)) as [Lc|Lc].
  2:{ injection H as <-. left. assert (K : card (map ppoint c) (length ps)) by (eapply perp_space_card; eassumption).
      destruct K as (d & Nd & Sd & Ld). rewrite <- Ld. apply Nat.le_lt_trans with (length c); [|exact Lc].
      rewrite <- (map_length ppoint c). apply NoDup_incl_length; [exact Nd|]. intros x Hx. apply Sd, Hx. }
  cbn [bind] in H. destruct (Nat.leb_spec 4 (length ps)) as [Lp|Lp]; [|injection H as <-; left; exact Lp].
  apply bind_Ok_inv in H as (k & Ek & H).
  assert (Main : k <> Some true -> bind (if Nat.eqb (length ps) 4 then Ok (Some [ps]) else tetrahedralization_points N delaunay ps)
     (fun tmp4 => match tmp4 with None => Raise AttributeError | Some o => bind (obj_volume_6d (A4 o)) (fun v => bind (notNone v) (fun _ => Ok (Some o))) end) = Ok r ->
     match r with None => (length ps < 4)%nat \/ coplanar_check_numeric_tau N draws ps = Ok (Some true)
     | Some o => (4 <= length ps)%nat /\ coplanar_check_numeric_tau N draws ps <> Ok (Some true) /\
       o <> [] /\ (forall t, In t o -> length t = 4%nat /\ forall v, In v t -> adm v) /\
       (length ps = 4%nat -> o = [ps]) /\ ((4 < length ps)%nat -> tetrahedralization_points N delaunay ps = Ok (Some o)) end).
  { intros Nk H'. apply bind_Ok_inv in H' as (tmp & Et & H'). destruct tmp as [o|]; [|discriminate].
    apply bind_Ok_inv in H' as (v & _ & H'). apply bind_Ok_inv in H' as (w & _ & H'). injection H' as <-.
    split; [exact Lp|]. split; [congruence|]. destruct (Nat.eqb_spec (length ps) 4) as [E4|E4].
    - injection Et as <-. split; [discriminate|]. split; [intros t [<-|[]]; split; [exact E4|intros u Hu; apply I, Inc, Hu]|]. split; [reflexivity|lia].
    - destruct (L_C37_pieces N delaunay ps _ Gp Et) as (q & l & ts & _ & F & No & S & It & If). split; [exact No|]. split.
      + intros t Ht. split.
        * apply It in Ht as [Ht _]. clear - F Gp Ht. induction F as [|s x l ts H _ IH]; [destruct Ht|]. destruct Ht as [<-|Ht]; [|auto]. apply (vertices_at_tet ps s x Gp H).
        * intros u Hu. rewrite Forall_forall in If. apply I, Inc, (If t Ht u Hu).
      + split; [lia|]. intros _. exact Et. }
  destruct k as [[|]|].
  - injection H as <-. right. exact Ek.
  - apply Main; [discriminate|exact H].
  - apply Main; [discriminate|exact H].
Qed.

(** Its tetrahedra are well-formed 6-d tetrahedra. *)
Lemma L_C35_tets : forall N delaunay draws t1 t2 o, tets [t1] -> tets [t2] ->
  intersection_two_tetrahedron_4 N delaunay draws t1 t2 = Ok (Some o) -> tets o.
Proof.
  intros N delaunay draws t1 t2 o T1 T2 H. destruct (Forall_inv T1) as [L1 G1]. destruct (Forall_inv T2) as [L2 G2].
  destruct (L_C35_result N delaunay draws t1 t2 (Some o) L1 G1 L2 G2 H) as (ps & _ & _ & _ & _ & _ & _ & _ & Ht & _).
  apply Forall_forall. intros t Hin. destruct (Ht t Hin) as [L A]. split; [exact L|]. apply Forall_forall. intros v Hv.
  apply (admissible_good N t1 t2 v (conj L1 G1) (conj L2 G2)), A, Hv.
Qed.

(** In exact arithmetic it never raises, provided the coplanarity check is decided and the
    triangulation of non-coplanar points succeeds, names existing points and has at
    least one tetrahedron of non-zero volume. *)
Lemma L_C35_never_raises : forall delaunay draws t1 t2, length t1 = 4%nat -> goods 6 t1 -> length t2 = 4%nat -> goods 6 t2 ->
  (forall ps, (4 <= length ps)%nat -> exists b, coplanar_check_numeric Rnum draws ps = Ok (Some b) /\ (b = false -> ~ coplanar3 ps)) ->
  (forall p q, (4 < length p)%nat -> goods 6 p -> ~ coplanar3 (map pp p) -> length q = length p -> exists l ts, delaunay q = Some l /\ Forall2 (vertices_at p) l ts /\
      exists t, In t ts /\ pvol t <> 0) ->
  exists r, intersection_two_tetrahedron_4 Rnum delaunay draws t1 t2 = Ok r.
Proof.
  intros delaunay draws t1 t2 L1 G1 L2 G2 HC HD. unfold intersection_two_tetrahedron_4.
  assert (T1 : tet4 t1) by (split; assumption). assert (T2 : tet4 t2) by (split; assumption).
  destruct (collect_R_ok t1 t2 T1 T2) as (c & Ec). rewrite Ec. cbn [bind]. pose proof (collect_good Rnum t1 t2 c T1 T2 Ec) as Gc.
  destruct (Nat.leb 4 (length c)); [|eauto]. destruct (perp_space_spec c Gc) as (ps & -> & Inc & ND & SS). cbn [bind].
  assert (Gp : goods 6 ps) by (eapply goods_incl; eassumption).
  destruct (Nat.leb_spec 4 (length ps)) as [Lp|Lp]; [|eauto].
  rewrite L_C26_tau by (apply goods_l6; exact Gp). destruct (HC (map pp ps)) as (b & Eb & Hb); [rewrite map_length; exact Lp|].
  rewrite Eb. cbn [bind]. destruct b; [eauto|]. specialize (Hb eq_refl).
  assert (K : exists o, (if Nat.eqb (length ps) 4 then Ok (Some [ps]) else tetrahedralization_points Rnum delaunay ps) = Ok (Some o) /\ tets o).
  { destruct (Nat.eqb_spec (length ps) 4) as [E4|E4].
    - exists [ps]. split; [reflexivity|]. constructor; [split; assumption|constructor].
    - destruct (L_C37_raises Rnum delaunay ps Gp) as (r & Er).
      + intros ->. cbn in Lp. lia.
      + intros q Lq. destruct (HD ps q) as (l & ts & E & F & _); try assumption; [lia|]. eauto.
      + destruct (L_C37_pieces Rnum delaunay ps r Gp Er) as (q & l & ts & Ed & F & R). destruct r as [o|].
        * exists o. split; [exact Er|]. destruct R as (_ & _ & It & _). apply Forall_forall. intros t Ht. apply It in Ht as [Ht _].
          clear - F Gp Ht. induction F as [|s x l ts H _ IH]; [destruct Ht|]. destruct Ht as [<-|Ht]; [|auto]. apply (vertices_at_tet ps s x Gp H).
        * exfalso. unfold tetrahedralization_points in Er. destruct ps as [|p0 ps']; [cbn in Lp; lia|]. set (ps := p0 :: ps') in *.
          apply bind_Ok_inv in Er as (q' & Eq & Er).
          destruct (HD ps q') as (l' & ts' & E' & F' & t & Ht & Nt); try assumption; [lia|eapply mapM_length; exact Eq|].
          rewrite E' in Er. apply bind_Ok_inv in Er as (o & Eo & Er). destruct (keep_spec ps l' o Gp Eo) as (ts2 & F2 & _ & I2).
          assert (ts2 = ts').
          { clear - F' F2. revert ts' F'. induction F2 as [|s x l ts H _ IH]; intros ts' F'; inversion F'; subst; [reflexivity|]. f_equal; [|auto].
            apply pick4_spec in H. match goal with K : vertices_at _ _ _ |- _ => apply pick4_spec in K; congruence end. }
          subst ts2. assert (In t o) by (apply I2; auto). destruct o; [contradiction|discriminate]. }
  destruct K as (o & -> & To). cbn [bind]. destruct (wp_elim _ _ (obj_volume_spec o To)) as (v & -> & w & -> & _). cbn [bind notNone]. eauto.
Qed.

(** In binary64: four distinct points, one tetrahedron, whose fourth vertex is new; a pair
    with only three distinct points gives None. *)
Example E_C35_ex :
  intersection_two_tetrahedron_4 Bnum (fun _ => None) [(0,1,2)%nat] tetA tetB =
    Ok (Some [[x2; o6; [T 0 0 1; T 0 0 1; T 0 0 1; T (-3) 2 1; T 0 0 1; T 0 0 1]; x1]]) /\
  intersection_two_tetrahedron_4 Bnum (fun _ => None) [(0,1,2)%nat] tetA [o6; x1; x2; x3] = Ok None.
Proof. split; vm_compute; reflexivity. Qed.

(** Five distinct points: the triangulation is used. *)
Example E_C35_ex5 :
  match intersection_two_tetrahedron_4 Bnum (fun _ => Some [(0,1,2,3); (0,1,2,4)]%nat) [(0,1,2)%nat] tetA tetC with
  | Ok (Some o) => length o = 2%nat | _ => False end.
Proof. vm_compute. reflexivity. Qed.

(** C36 for any distance test, classification and pairwise intersection: every
    tetrahedron of the result is a tetrahedron t1 of the first object that lies in some t2
    of the second, or belongs to what some pair (t1,t2) yields; with kind='simple' it
    may also be the t1 of such a pair. *)
Lemma L_C36_members : forall rough classify inter simple o1 o2 r,
  common_pieces rough classify inter simple o1 o2 = Ok (Some r) -> forall t, In t r ->
  exists i j t1 t2, nth_error o1 i = Some t1 /\ nth_error o2 j = Some t2 /\ rough t1 = Ok true /\
    ((classify t1 t2 = Ok 1%Z /\ t = t1) \/
     exists q, yields classify inter i j t1 t2 q /\ (In t q \/ (simple = true /\ t = t1))).
Proof.
  intros rough classify inter simple o1 o2 r H t Ht. unfold common_pieces in H. apply bind_Ok_inv in H as (c & Ec & H).
  destruct (outer_spec _ _ _ _ _ _ _ _ Ec) as (cs & -> & L & F).
  assert (Hr : In t (concat cs)) by (destruct (concat cs); [discriminate|injection H as <-; exact Ht]).
  apply concat_In in Hr as (i & x & Hx & Htx). destruct (nth_same_length cs o1 i x L Hx) as (t1 & Ht1).
  specialize (F i t1 x Ht1 Hx). destruct (contribution_spec _ _ _ _ _ _ _ _ F) as [[_ ->]|(R & M & _)]; [destruct Htx|].
  destruct (M t Htx) as [(j & t2 & Hj & Hc & ->)|(j & t2 & q & Hj & Y & D)]; exists i, j, t1, t2; repeat split; auto. right. eauto.
Qed.

(** Nothing is lost: every pair contributes, except that the pairs after a t2 that
    contains t1 are not looked at. *)
Lemma L_C36_complete : forall rough classify inter o1 o2 r i t1 j t2,
  common_pieces rough classify inter false o1 o2 = Ok r ->
  nth_error o1 i = Some t1 -> nth_error o2 j = Some t2 -> rough t1 = Ok true ->
  (classify t1 t2 = Ok 1%Z -> exists r', r = Some r' /\ In t1 r') /\
  ((forall j' t', (j' < j)%nat -> nth_error o2 j' = Some t' -> classify t1 t' <> Ok 1%Z) ->
   forall q, q <> [] -> yields classify inter i j t1 t2 q -> exists r', r = Some r' /\ incl q r').
Proof.
  intros rough classify inter o1 o2 r i t1 j t2 H Hi Hj Hr. unfold common_pieces in H. apply bind_Ok_inv in H as (c & Ec & H).
  destruct (outer_spec _ _ _ _ _ _ _ _ Ec) as (cs & -> & L & F).
  destruct (nth_same_length o1 cs i t1 (eq_sym L) Hi) as (x & Hx).
  specialize (F i t1 x Hi Hx). destruct (contribution_spec _ _ _ _ _ _ _ _ F) as [[R _]|(_ & _ & C1 & C2 & _)]; [congruence|].
  assert (K : forall t, In t x -> In t (concat cs)) by (intros t Ht; apply concat_In; eauto).
  assert (S : forall t, In t x -> r = Some (concat cs)).
  { intros t Ht. apply K in Ht. destruct (concat cs); [destruct Ht|]. injection H as <-. reflexivity. }
  split.
  - intros Hc. pose proof (C1 j t2 Hj Hc) as I. exists (concat cs). split; [eapply S; exact I|apply K, I].
  - intros Hn q Nq Y. pose proof (C2 eq_refl j t2 q Hj Hn Y) as I. destruct q as [|q0 q]; [congruence|].
    exists (concat cs). split; [apply (S q0), I; left; reflexivity|]. intros t Ht. apply K, I, Ht.
Qed.

(** None exactly when no pair yields anything. *)
Lemma L_C36_none : forall rough classify inter simple o1 o2 r,
  (forall i j t1 t2, inter i j t1 t2 <> Ok (Some [])) ->
  common_pieces rough classify inter simple o1 o2 = Ok r ->
  (r = None <-> forall i j t1 t2, nth_error o1 i = Some t1 -> nth_error o2 j = Some t2 -> rough t1 = Ok true ->
     classify t1 t2 <> Ok 1%Z /\ forall q, ~ yields classify inter i j t1 t2 q).
Proof.
  intros rough classify inter simple o1 o2 r NE H. unfold common_pieces in H. apply bind_Ok_inv in H as (c & Ec & H).
  destruct (outer_spec _ _ _ _ _ _ _ _ Ec) as (cs & -> & L & F).
  assert (Nq : forall i j t1 t2 q, yields classify inter i j t1 t2 q -> q <> []).
  { intros i j t1 t2 q [[_ ->]|[_ Y]]; [discriminate|]. intros ->. apply (NE _ _ _ _ Y). }
  assert (E : r = None <-> concat cs = []).
  { destruct (concat cs); injection H as <-; split; congruence. }
  rewrite E, concat_nil. split.
  - intros A i j t1 t2 Hi Hj Hr. destruct (nth_same_length o1 cs i t1 (eq_sym L) Hi) as (x & Hx).
    specialize (F i t1 x Hi Hx). destruct (contribution_spec _ _ _ _ _ _ _ _ F) as [[R _]|(_ & _ & _ & _ & N)]; [congruence|].
    apply (proj1 (N (fun k t q _ Y => Nq _ _ _ _ _ Y)) (A i x Hx) j t2 Hj).
  - intros A i x Hx. destruct (nth_same_length cs o1 i x L Hx) as (t1 & Hi). specialize (F i t1 x Hi Hx).
    destruct (contribution_spec _ _ _ _ _ _ _ _ F) as [[_ ->]|(R & _ & _ & _ & N)]; [reflexivity|].
    apply (proj2 (N (fun k t q _ Y => Nq _ _ _ _ _ Y))). intros k t2 Hk. apply (A i k t1 t2 Hi Hk R).
Qed.

(** kind='simple' succeeds whenever kind='standard' does, and gives the same volume. *)
Lemma L_C36_simple : forall rough classify inter o1 o2, tets o1 -> tets o2 ->
  (forall i j t1 t2 q, tets [t1] -> tets [t2] -> inter i j t1 t2 = Ok (Some q) -> tets q /\ q <> []) ->
  (common_pieces rough classify inter false o1 o2 = Ok None -> common_pieces rough classify inter true o1 o2 = Ok None) /\
  (forall r, common_pieces rough classify inter false o1 o2 = Ok (Some r) ->
     exists r', common_pieces rough classify inter true o1 o2 = Ok (Some r') /\ obj_volume_6d (A4 r') = obj_volume_6d (A4 r)).
Proof.
  intros rough classify inter o1 o2 T1 T2 HI.
  assert (HT : forall i j t1 t2 q, tets [t1] -> tets [t2] -> inter i j t1 t2 = Ok (Some q) -> tets q) by (intros i j t1 t2 q A B C; exact (proj1 (HI i j t1 t2 q A B C))).
  (* emptiness agrees *)
  assert (Emp : forall i t1 c c', In t1 o1 -> contribution rough classify inter false i t1 o2 = Ok c -> contribution rough classify inter true i t1 o2 = Ok c' -> (c = [] <-> c' = [])).
  { intros i t1 c c' Hin E E'.
    assert (Tt1 : tets [t1]) by (constructor; [unfold tets in T1; rewrite Forall_forall in T1; apply T1, Hin|constructor]).
    assert (NE : forall k t2 q, nth_error o2 k = Some t2 -> yields classify inter i k t1 t2 q -> q <> []).
    { intros k t2 q Hk [[_ ->]|[_ Y]]; [discriminate|]. refine (proj2 (HI _ _ _ _ _ Tt1 _ Y)).
      constructor; [|constructor]. unfold tets in T2. rewrite Forall_forall in T2. apply T2. eapply nth_error_In; exact Hk. }
    destruct (contribution_spec _ _ _ _ _ _ _ _ E) as [[R ->]|(R & _ & _ & _ & N)];
    destruct (contribution_spec _ _ _ _ _ _ _ _ E') as [[R' ->]|(R' & _ & _ & _ & N')]; try congruence; [tauto|].
    rewrite (N NE), (N' NE). tauto. }
  assert (EmpO : forall o i c c', incl o o1 -> outer_loop rough classify inter false i o o2 = Ok c -> outer_loop rough classify inter true i o o2 = Ok c' -> (c = [] <-> c' = [])).
  { induction o as [|t o IH]; intros i c c' Hi E E'; cbn [outer_loop] in *; [injection E as <-; injection E' as <-; tauto|].
    apply bind_Ok_inv in E as (x & Ex & E). apply bind_Ok_inv in E as (y & Ey & E). injection E as <-.
    apply bind_Ok_inv in E' as (x' & Ex' & E'). apply bind_Ok_inv in E' as (y' & Ey' & E'). injection E' as <-.
    pose proof (Emp i t x x' (Hi t (or_introl eq_refl)) Ex Ex') as K1. pose proof (IH (S i) y y' (fun z Hz => Hi z (or_intror Hz)) Ey Ey') as K2.
    split; intros A; apply app_eq_nil in A as [A B]; apply K1 in A; apply K2 in B; subst; reflexivity. }
  unfold common_pieces. split.
  - intros H. apply bind_Ok_inv in H as (c & Ec & H). destruct c; [|discriminate].
    destruct (outer_simple _ _ _ HT 0 o1 o2 [] T1 T2 Ec) as (c' & Ec' & _). rewrite Ec'. cbn [bind].
    rewrite (proj1 (EmpO o1 0%nat [] c' (fun z Hz => Hz) Ec Ec') eq_refl). reflexivity.
  - intros r H. apply bind_Ok_inv in H as (c & Ec & H).
    destruct (outer_simple _ _ _ HT 0 o1 o2 c T1 T2 Ec) as (c' & Ec' & Tc & Tc' & V). rewrite Ec'. cbn [bind].
    pose proof (EmpO o1 0%nat c c' (fun z Hz => Hz) Ec Ec') as K. destruct c as [|c0 c]; [discriminate|]. injection H as <-.
    destruct c' as [|c0' c']; [exfalso; assert (c0 :: c = []) by (apply K; reflexivity); discriminate|].
    exists (c0' :: c'). split; [reflexivity|]. apply obj_volume_eq; assumption.
Qed.

(** intersection() itself: arguments that are not 4-d give None, otherwise the loop runs
    with the tests of C33, C34 and the pairwise intersection of C35. *)
Lemma L_C36_intersection : forall N delaunay draws simple a1 a2,
  match a1, a2 with
  | A4 o1, A4 o2 => forall c d, centroid_obj o2 = Ok c -> ball_radius_obj N (A4 o2) c = Ok d ->
      intersection N delaunay draws simple a1 a2 =
      common_pieces (fun t => rough_check_intersection_tetrahedron_obj N t c d) (check_intersection_two_tetrahedron_4 N)
        (fun i j => intersection_two_tetrahedron_4 N delaunay (draws i j)) simple o1 o2
  | _, _ => intersection N delaunay draws simple a1 a2 = Ok None
  end.
Proof.
  intros N delaunay draws simple a1 a2. destruct a1; try reflexivity; destruct a2; try reflexivity.
  intros c d Ec Ed. cbn [intersection]. unfold intersection_two_obj_1. rewrite Ec. cbn [bind]. rewrite Ed. reflexivity.
Qed.

(** The two kinds of intersection() have the same volume. *)
Lemma L_C36_kinds : forall N delaunay draws o1 o2 r, tets o1 -> tets o2 ->
  intersection N delaunay draws false (A4 o1) (A4 o2) = Ok (Some r) ->
  exists r', intersection N delaunay draws true (A4 o1) (A4 o2) = Ok (Some r') /\ obj_volume_6d (A4 r') = obj_volume_6d (A4 r).
Proof.
  intros N delaunay draws o1 o2 r T1 T2 H. cbn [intersection] in *. unfold intersection_two_obj_1 in *.
  apply bind_Ok_inv in H as (c & -> & H). cbn [bind]. apply bind_Ok_inv in H as (d & -> & H). cbn [bind].
  refine (proj2 (L_C36_simple _ _ _ o1 o2 T1 T2 _) r H). intros i j t1 t2 q Tt1 Tt2 Hq. split; [exact (L_C35_tets _ _ _ _ _ _ Tt1 Tt2 Hq)|].
  destruct (Forall_inv Tt1) as [L1 G1]. destruct (Forall_inv Tt2) as [L2 G2].
  destruct (L_C35_result _ _ _ _ _ _ L1 G1 L2 G2 Hq) as (ps & _ & _ & _ & _ & _ & _ & No & _). exact No.
Qed.

Lemma one_pair rough classify inter t1 t2 p q : rough t1 = Ok true -> classify t1 t2 = Ok 3%Z -> inter 0%nat 0%nat t1 t2 = Ok (Some (p :: q)) ->
  common_pieces rough classify inter false [t1] [t2] = Ok (Some (p :: q)).
Proof. intros H1 H2 H3. unfold common_pieces. cbn [outer_loop]. unfold contribution. rewrite H1. cbn [bind inner_loop]. rewrite H2. cbn [bind Z.eqb]. change (3 =? 1)%Z with false. change (3 =? 2)%Z with false. change (3 =? 3)%Z with true. cbn iota. rewrite H3. cbn. rewrite !app_nil_r. reflexivity. Qed.
Example E_C36_ex : tets [tetA] /\ tets [tetB] /\
  intersection Bnum (fun _ => None) (fun _ _ => [(0,1,2)%nat]) false (A4 [tetA]) (A4 [tetB]) =
    Ok (Some [[x2; o6; [T 0 0 1; T 0 0 1; T 0 0 1; T (-3) 2 1; T 0 0 1; T 0 0 1]; x1]]).
Proof.
  split; [gd|]. split; [gd|].
  assert (Q : exists c, centroid_obj [tetB] = Ok c /\ bind (ball_radius_obj Bnum (A4 [tetB]) c) (fun d => rough_check_intersection_tetrahedron_obj Bnum tetA c d) = Ok true) by (eexists; split; [vm_compute; reflexivity|]; vm_compute; reflexivity).
  destruct Q as (c & Ec & Q). apply bind_Ok_inv in Q as (d & Ed & Er). destruct E_C33_ex as (_ & _ & _ & _ & E3). destruct E_C35_ex as [E5 _].
  etransitivity; [exact (L_C36_intersection Bnum (fun _ => None) (fun _ _ => [(0,1,2)%nat]) false (A4 [tetA]) (A4 [tetB]) c d Ec Ed)|].
  refine (one_pair _ _ _ _ _ _ _ _ _ _); [exact Er|exact E3|exact E5].
Qed.

(** End to end in exact arithmetic: a tetrahedron of the first object all of whose vertices
    lie in a (non-flat) tetrahedron of the second is in the result. *)
Lemma L_C36_contained : forall delaunay draws o1 o2 t1 t2 r, tets o1 -> tets o2 -> In t1 o1 -> In t2 o2 ->
  pvol t2 <> 0 -> (forall v, In v t1 -> hull (map pp t2) (pp v)) ->
  intersection Rnum delaunay draws false (A4 o1) (A4 o2) = Ok r -> exists r', r = Some r' /\ In t1 r'.
Proof.
  intros delaunay draws o1 o2 t1 t2 r T1 T2 H1 H2 Hv Hin H.
  assert (Tt1 : length t1 = 4%nat /\ goods 6 t1) by (unfold tets in T1; rewrite Forall_forall in T1; auto).
  assert (Tt2 : length t2 = 4%nat /\ goods 6 t2) by (unfold tets in T2; rewrite Forall_forall in T2; auto).
  destruct Tt1 as [L1 G1]. destruct Tt2 as [L2 G2].
  destruct t1 as [|a [|b [|c [|d [|]]]]]; try discriminate L1. set (t1 := [a;b;c;d]) in *.
  destruct (L_C34_never_discards t1 o2 t2 (pp a)) as (m & k & Em & Ek & Er); [discriminate|exact G1|exact T2|exact H2| | |].
  { exists [1;0;0;0]. split; [|repeat (apply Forall_cons; [lra|]); apply Forall_nil].
    split; [reflexivity|]. split; [cbn; lra|]. cbn [map comb t1]. unfold o3. generalize (pp a) (pp b) (pp c) (pp d). intros x y z w. p3 x; p3 y; p3 z; p3 w. cbn. apply f_equal2; [apply f_equal2|]; ring. }
  { apply Hin. left. reflexivity. }
  pose proof (L_C36_intersection Rnum delaunay draws false (A4 o1) (A4 o2) m k Em Ek) as E. cbn beta iota in E. rewrite E in H.
  apply In_nth_error in H1 as (i & Hi). apply In_nth_error in H2 as (j & Hj).
  refine (proj1 (L_C36_complete _ _ _ _ _ _ i t1 j t2 H Hi Hj Er) _).
  destruct (L_C33_classes Rnum t1 t2 L1 G1 L2 G2) as (q & Eq & Q1 & _). rewrite Eq. f_equal. apply Q1.
  intros v Hvin. assert (Gv : good 6 v) by (eapply goods_in; [exact G1|exact Hvin]).
  rewrite L_C29_tau by (try apply goods_l6; try apply good_l6; assumption).
  specialize (Hin v Hvin). destruct t2 as [|x [|y [|z [|w [|]]]]]; try discriminate L2. cbn [map] in *.
  apply L_C29_closed_tetrahedron; [|exact Hin].
  intros Fl. apply Hv. unfold flat4 in Fl. unfold pvol. cbn [map tetvol].
  assert (K : forall p0 p1 p2 p3, length p0 = 3%nat -> length p1 = 3%nat -> length p2 = 3%nat -> length p3 = 3%nat ->
     tetvol [p0;p1;p2;p3] = Rabs (triple3 (sub3 (tri3 p1) (tri3 p0)) (sub3 (tri3 p2) (tri3 p0)) (sub3 (tri3 p3) (tri3 p0))) / 6).
  { intros p0 p1 p2 p3 K0 K1 K2 K3. d3 p0 K0. d3 p1 K1. d3 p2 K2. d3 p3 K3. unfold tetvol, Spec.Geometry.det3. cbn. unfold dot; cbn. f_equal. f_equal. ring. }
  unfold tetvol in K. rewrite K by reflexivity. rewrite <- !pp_tri3, Fl, Rabs_R0. field.
Qed.

Example E_C36_contained_ex : pvol tetA <> 0 /\ forall v, In v tetA -> hull (map pp tetA) (pp v).
Proof.
  split.
  - unfold pvol, tetA, iv, o6, x1, x2, x4. cbn. unfold val, det3. cbn. unfold dot; cbn. intros H. unfold Rdiv in H. rewrite Rinv_1 in H.
    apply Rmult_integral in H as [H|H]; [|apply (Rinv_neq_0_compat 6); [lra|exact H]].
    apply (Rabs_no_R0 _) in H; [exact H|]. clear H. pose proof TAU_sq as S. pose proof TAU_bounds as B. intros H.
    assert (K : TAU * TAU * TAU = 2 * TAU + 1) by (replace (TAU*TAU*TAU) with (TAU * (TAU*TAU)) by ring; rewrite S; ring_simplify; replace (TAU^2) with (TAU*TAU) by ring; rewrite S; ring).
    ring_simplify in H. replace (TAU^3) with (TAU*TAU*TAU) in H by ring. replace (TAU^2) with (TAU*TAU) in H by ring. rewrite ?K, ?S in H. lra.
  - intros v Hv. unfold tetA in *. cbn [map]. destruct Hv as [<-|[<-|[<-|[<-|[]]]]];
    [exists [1;0;0;0]|exists [0;1;0;0]|exists [0;0;1;0]|exists [0;0;0;1]];
    (split; [split; [reflexivity|split; [cbn; lra|]]|repeat (apply Forall_cons; [lra|]); apply Forall_nil]); cbn [comb]; unfold o3;
    generalize (pp o6) (pp x1) (pp x2) (pp x4); intros a b c d; p3 a; p3 b; p3 c; p3 d; cbn; apply f_equal2; try apply f_equal2; ring.
Qed.

(** C56: subtraction for any surface generator and any per-tetrahedron subtraction:
    None as soon as one piece is None (nothing after it is even computed) ... *)
Lemma L_C56_none : forall surface not_obj o1 o2 s2 i t, surface o2 = Ok s2 -> nth_error o1 i = Some t ->
  not_obj i t o2 s2 = Ok None ->
  (forall j u, (j < i)%nat -> nth_error o1 j = Some u -> exists q, not_obj j u o2 s2 = Ok (Some q)) ->
  subtraction surface not_obj (A4 o1) (A4 o2) = Ok None.
Proof.
  intros surface not_obj o1 o2 s2 i t Es Hi Hn Hb. cbn [subtraction]. unfold subtraction_two_obj. rewrite Es. cbn [bind].
  assert (K : forall o k out i, nth_error o i = Some t -> not_obj (k + i)%nat t o2 s2 = Ok None ->
     (forall j u, (j < i)%nat -> nth_error o j = Some u -> exists q, not_obj (k + j)%nat u o2 s2 = Ok (Some q)) ->
     subtract_loop not_obj k o o2 s2 out = Ok None).
  { clear. induction o as [|u o IH]; intros k out i Hi Hn Hb; [destruct i; discriminate|]. cbn [subtract_loop]. destruct i.
    - cbn in Hi. injection Hi as ->. rewrite Nat.add_0_r in Hn. rewrite Hn. reflexivity.
    - destruct (Hb 0%nat u) as (q & Eq); [lia|reflexivity|]. rewrite Nat.add_0_r in Eq. rewrite Eq. cbn [bind].
      apply (IH (S k) _ i); [exact Hi|rewrite Nat.add_succ_r in Hn; exact Hn|].
      intros j v Hj Hv. destruct (Hb (S j) v) as (q' & Eq'); [lia|exact Hv|]. exists q'. rewrite Nat.add_succ_r in Eq'. exact Eq'. }
  apply (K o1 0%nat None i); assumption.
Qed.

(** ... otherwise the concatenation of the pieces in order. *)
Lemma L_C56_concat : forall surface not_obj o1 o2 s2 ps, surface o2 = Ok s2 -> o1 <> [] -> length ps = length o1 ->
  (forall i t p, nth_error o1 i = Some t -> nth_error ps i = Some p -> not_obj i t o2 s2 = Ok (Some p)) ->
  subtraction surface not_obj (A4 o1) (A4 o2) = Ok (Some (concat ps)).
Proof.
  intros surface not_obj o1 o2 s2 ps Es Ne L H. cbn [subtraction]. unfold subtraction_two_obj. rewrite Es. cbn [bind].
  assert (K : forall o ps k out, length ps = length o ->
     (forall i t p, nth_error o i = Some t -> nth_error ps i = Some p -> not_obj (k + i)%nat t o2 s2 = Ok (Some p)) ->
     subtract_loop not_obj k o o2 s2 out = Ok (match o with [] => out | _ => Some (olist2 out ++ concat ps) end)).
  { clear. induction o as [|t o IH]; intros ps k out L H; [reflexivity|]. destruct ps as [|p ps]; [discriminate|]. cbn [subtract_loop].
    pose proof (H 0%nat t p eq_refl eq_refl) as E. rewrite Nat.add_0_r in E. rewrite E. cbn [bind].
    rewrite (IH ps (S k) (oapp out p)); [|cbn in L; lia|].
    - destruct o as [|t' o]; [|rewrite oapp_list, <- app_assoc; reflexivity].
      destruct ps; [|discriminate]. cbn. rewrite app_nil_r. destruct out; reflexivity.
    - intros i u q Hu Hq. pose proof (H (S i) u q Hu Hq) as E'. rewrite Nat.add_succ_r in E'. exact E'. }
  rewrite (K o1 ps 0%nat None L H). destruct o1; [congruence|reflexivity].
Qed.

Lemma L_C56_not_4d : forall surface not_obj a1 a2,
  (forall o1 o2, (a1, a2) <> (A4 o1, A4 o2)) -> subtraction surface not_obj a1 a2 = Ok None.
Proof. intros surface not_obj a1 a2 H. destruct a1; try reflexivity; destruct a2; try reflexivity. exfalso. eapply H; reflexivity. Qed.

Example E_C56_ex : subtraction (fun o => Ok o) (fun i t _ _ => if Nat.eqb i 1 then Ok None else Ok (Some [t])) (A4 [tetA; tetB; tetC]) (A4 [tetA]) = Ok None /\
  subtraction (fun o => Ok o) (fun _ t _ _ => Ok (Some [t; t])) (A4 [tetA; tetB]) (A4 [tetA]) = Ok (Some [tetA; tetA; tetB; tetB]).
Proof. split; reflexivity. Qed.
