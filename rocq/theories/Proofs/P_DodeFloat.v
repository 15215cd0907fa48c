(** What the geometric tests of dode2/numericalc.py and the intersection of dode2 objects
    give in binary64: C99, C100.
    Here la is any np.dot and np.linalg.det accurate to the bounds of Spec/LinAlg; C108 says
    which evaluations are.  Examples and refutations use the textbook ones (Bnum). *)
From Coq Require Import Reals List ZArith Lia Lra Bool.
From Flocq Require Import IEEE754.Binary.
From Verif Require Import Base.Res Model.Tau Model.Arr Model.Num Model.DodeMath1 Model.DodeNumeric Model.DodeIntersect
  Spec.LinAlg Spec.Value Spec.RVec Spec.Shape Spec.DodeSpec Spec.Sets Spec.Space Spec.Tetra Spec.Overlap Spec.Plane Spec.Samples Spec.DodeSamples Spec.Float Spec.PlaneFloat.
Import ListNotations.
Local Open Scope R_scope.

From Verif Require Proofs.LinAlgLemmas.
From Coq Require Import Classical.
From Verif Require Import Model.IcoIntersect Proofs.ResLemmas Proofs.RVecLemmas Proofs.NumLemmas Proofs.IntersectLemmas Proofs.ObjLemmas Proofs.DedupLemmas Proofs.DodeProj Proofs.DodeDedupLemmas Proofs.DodeAreaLemmas Proofs.Irrational Proofs.PlaneLemmas Proofs.Polytope Proofs.Polygon
  Proofs.OverlapLemmas Proofs.DodeIntersectLemmas Proofs.DodeObjLemmas Proofs.Caratheodory Proofs.P_DodeIntersect Proofs.DodeOverlapLemmas Proofs.P_DodeOverlap Proofs.FloatGeom Proofs.DodeFloat Proofs.DodeFloatTests Proofs.DodeFloatOverlap.

(** C99: the perpendicular coordinates computed from exact numbers of size A are finite and
    off by at most 10 A / 2^51. *)
Lemma L_C99_projection : forall (la : linalg) A v, 1 <= A <= 1000000 -> coefs A v -> exists x y z p q r, dinternal (@Bmath la) v = Ok (x, y, z) /\ dp v = (p, q, r) /\
  is_finite 53 1024 x = true /\ is_finite 53 1024 y = true /\ is_finite 53 1024 z = true /\
  Rabs (B2R 53 1024 x - p) <= 10 * A / 2^51 /\ Rabs (B2R 53 1024 y - q) <= 10 * A / 2^51 /\ Rabs (B2R 53 1024 z - r) <= 10 * A / 2^51.
Proof.
  intros la. intros A v HA C. destruct (dinternal_B A v HA C) as (((x & y) & z) & E & H). destruct (dp v) as [[p q] r]. destruct H as ([Fx Hx] & [Fy Hy] & [Fz Hz]).
  replace (2 ^ 51) with 2251799813685248 by ring. exists x, y, z, p, q, r. auto 10.
Qed.
(** Every point of a closed triangle is accepted ... *)
Lemma L_C99_inside : forall la, linalg_ok la ->
  forall A D h v t, tame2 A D h (v :: t) -> length t = 3%nat -> plump2 A D t ->
  hull (map dp t) (dp v) -> inside_outside_triangle_tau (@Bmath la) v t = Ok true.
Proof. intros la LA. intros A D h v t T L P. exact (proj1 (inside2_B A D h v t T L P)). Qed.
(** ... and every point with a barycentric coordinate of at most -1e-6 is rejected. *)
Lemma L_C99_outside : forall la, linalg_ok la ->
  forall A D h v t ws w, tame2 A D h (v :: t) -> length t = 3%nat -> plump2 A D t ->
  bary ws (map dp t) (dp v) -> In w ws -> w <= - (1/1000000) -> inside_outside_triangle_tau (@Bmath la) v t = Ok false.
Proof. intros la LA. intros A D h v t ws w T L P. exact (proj2 (inside2_B A D h v t T L P) ws w). Qed.
(** Exactly parallel segments never meet. *)
Lemma L_C99_parallel : forall la, linalg_ok la ->
  forall A D h a b c d, tame2 A D h [a; b; c; d] -> turn a b c d = 0 ->
  dcheck_intersection_two_segment_numerical_6d_tau (@Bmath la) [a; b] [c; d] = Ok false.
Proof. intros la LA. intros A D h a b c d T. exact (proj1 (crossing2_B A D h a b c d T)). Qed.
(** Segments that cross away from their ends are recognised ... *)
Lemma L_C99_crosses : forall la, linalg_ok la ->
  forall A D h a b c d p, tame2 A D h [a; b; c; d] -> turn a b c d <> 0 -> sharp2 A D [a; b] [c; d] ->
  12/10000000 <= turn a b c d ^ 2 -> crosses_at [a; b] [c; d] p ->
  dcheck_intersection_two_segment_numerical_6d_tau (@Bmath la) [a; b] [c; d] = Ok true.
Proof.
  intros la LA. intros A D h a b c d p T Nz Sh Big [C1 C2]. destruct (Sh a b c d eq_refl eq_refl) as [Z|Sp]; [contradiction|]. cbn [map] in *.
  apply seg_param in C1 as (x & Hx & Ex). apply seg_param in C2 as (y & Hy & Ey).
  apply (proj2 (proj2 (crossing2_B A D h a b c d T) Nz Sp x y ltac:(congruence)) Big); lra.
Qed.
(** ... and recognised segments have a point within 1e-6 of both, in barycentric coordinates. *)
Lemma L_C99_sound : forall la, linalg_ok la ->
  forall A D h a b c d, tame2 A D h [a; b; c; d] -> sharp2 A D [a; b] [c; d] ->
  dcheck_intersection_two_segment_numerical_6d_tau (@Bmath la) [a; b] [c; d] = Ok true ->
  exists p, near (1/1000000) (map dp [a; b]) p /\ near (1/1000000) (map dp [c; d]) p.
Proof.
  intros la LA. intros A D h a b c d T Sh Ck. destruct (crossing2_B A D h a b c d T) as [Par Cr].
  assert (Nz : turn a b c d <> 0) by (intros Z; rewrite (Par Z) in Ck; discriminate).
  destruct (Sh a b c d eq_refl eq_refl) as [Z|Sp]; [contradiction|].
  assert (Lv : level h [a; b; c; d]) by apply T. assert (Hh : forall w, In w [a; b; c; d] -> height (dp w) = h) by (unfold level in Lv; rewrite Forall_forall in Lv; exact Lv). cbn [In] in Hh.
  destruct (seg_solution h (dp a) (dp b) (dp c) (dp d)) as (x & y & Sol); try (apply Hh; tauto); [exact Nz|].
  destruct (proj1 (Cr Nz Sp x y Sol) Ck) as (Hx & Hy). exists (add3 (dp a) (scale3 x (sub3 (dp b) (dp a)))). cbn [map].
  split; [|rewrite Sol]; (replace (1/1000000) with (- - (1/1000000)) by lra); apply on_seg; lra.
Qed.

(** C100: every point of an intersection computed in binary64 lies in a triangle of each
    object up to 1e-6 in barycentric coordinates, whatever the triangulation. *)
Lemma L_C100_sound : forall la, linalg_ok la ->
  forall delaunay o1 o2 r p, tris o1 -> tris o2 ->
  (forall t1 t2, In t1 o1 -> In t2 o2 -> exists A D h, fit_pair2 A D h t1 t2) ->
  dintersection (@Bmath la) delaunay false (A4 o1) (A4 o2) = Ok (Some r) -> dregion r p ->
  exists t1 t2, In t1 o1 /\ In t2 o2 /\ near (1/1000000) (map dp t1) p /\ near (1/1000000) (map dp t2) p.
Proof.
  intros la LA. intros delaunay o1 o2 r p T1 T2 Fit H (t & It & Hp).
  unfold tris in T1, T2. rewrite Forall_forall in T1, T2.
  cbn [dintersection] in H. unfold dintersection_two_obj_1 in H. apply bind_Ok_inv in H as (c & Ec & H). apply bind_Ok_inv in H as (d & Ed & H).
  destruct (L_C74_members _ _ _ _ _ _ _ H t It) as (i & j & t1 & t2 & N1 & N2 & _ & Y).
  apply nth_error_In in N1, N2. assert (Tt1 : tri1 t1) by exact (T1 t1 N1). assert (Tt2 : tri1 t2) by exact (T2 t2 N2). destruct (Fit t1 t2 N1 N2) as (A & D & h & F).
  assert (TT1 : tris [t1]) by (constructor; [exact Tt1|constructor]). assert (TT2 : tris [t2]) by (constructor; [exact Tt2|constructor]).
  exists t1, t2. split; [exact N1|]. split; [exact N2|].
  destruct (L_C72_classes Bmath t1 t2 TT1 TT2) as (k & Ek & K1 & K2 & K3 & _).
  destruct Y as [[Y ->]|(q & Y & [Iq|[Bad _]])]; [| |discriminate].
  - rewrite Y in Ek. injection Ek as <-. destruct K1 as [K1 _]. specialize (K1 eq_refl). split.
    + apply (near_weaken 0); [lra|]. apply hull_near0. exact Hp.
    + apply (near_hull _ (map dp t1) _ _ Hp). intros x Ix. apply in_map_iff in Ix as (v & <- & Iv). exact (inside2_near_B A D h t1 t2 v F Tt2 Iv (K1 v Iv)).
  - destruct Y as [[Y ->]|[Y Yi]].
    + destruct Iq as [<-|[]]. rewrite Y in Ek. injection Ek as <-. destruct K2 as [K2 _]. specialize (K2 eq_refl) as [_ K2]. split.
      * apply (near_hull _ (map dp t2) _ _ Hp). intros x Ix. apply in_map_iff in Ix as (v & <- & Iv). exact (inside2_near_B A D h t2 t1 v (fit2_sym _ _ _ _ _ F) Tt1 Iv (K2 v Iv)).
      * apply (near_weaken 0); [lra|]. apply hull_near0. exact Hp.
    + destruct (L_C73_result Bmath delaunay t1 t2 (Some q) TT1 TT2 Yi) as (ps & _ & _ & _ & _ & _ & _ & _ & Hq & _).
      split; apply (near_hull _ (map dp t) _ _ Hp); intros x Ix; apply in_map_iff in Ix as (v & <- & Iv); apply (dadmissible_near_B A D h t1 t2 v F Tt1 Tt2), (Hq t v Iq Iv).
Qed.
(** If no vertex and no crossing point lies within 1e-6 outside, the result lies exactly in
    both objects. *)
Lemma L_C100_sound_exact : forall la, linalg_ok la ->
  forall delaunay o1 o2 r p, tris o1 -> tris o2 ->
  (forall t1 t2, In t1 o1 -> In t2 o2 -> (exists A D h, fit_pair2 A D h t1 t2) /\ clear3_pair t1 t2 /\ clear3_pair t2 t1) ->
  dintersection (@Bmath la) delaunay false (A4 o1) (A4 o2) = Ok (Some r) -> dregion r p -> dregion o1 p /\ dregion o2 p.
Proof.
  intros la LA. intros delaunay o1 o2 r p T1 T2 Fit H (t & It & Hp).
  unfold tris in T1, T2. rewrite Forall_forall in T1, T2.
  cbn [dintersection] in H. unfold dintersection_two_obj_1 in H. apply bind_Ok_inv in H as (c & Ec & H). apply bind_Ok_inv in H as (d & Ed & H).
  destruct (L_C74_members _ _ _ _ _ _ _ H t It) as (i & j & t1 & t2 & N1 & N2 & _ & Y).
  apply nth_error_In in N1, N2. assert (Tt1 : tri1 t1) by exact (T1 t1 N1). assert (Tt2 : tri1 t2) by exact (T2 t2 N2). destruct (Fit t1 t2 N1 N2) as ((A & D & h & F) & C1 & C2).
  assert (TT1 : tris [t1]) by (constructor; [exact Tt1|constructor]). assert (TT2 : tris [t2]) by (constructor; [exact Tt2|constructor]).
  enough (G : hull (map dp t1) p /\ hull (map dp t2) p) by (destruct G; split; [exists t1|exists t2]; auto).
  destruct (L_C72_classes Bmath t1 t2 TT1 TT2) as (k & Ek & K1 & K2 & K3 & _).
  destruct Y as [[Y ->]|(q & Y & [Iq|[Bad _]])]; [| |discriminate].
  - rewrite Y in Ek. injection Ek as <-. destruct K1 as [K1 _]. specialize (K1 eq_refl). split; [exact Hp|].
    apply (hull_trans (map dp t1) _ _ Hp). intros x Ix. apply in_map_iff in Ix as (v & <- & Iv). apply (proj1 C1 v Iv). exact (inside2_near_B A D h t1 t2 v F Tt2 Iv (K1 v Iv)).
  - destruct Y as [[Y ->]|[Y Yi]].
    + destruct Iq as [<-|[]]. rewrite Y in Ek. injection Ek as <-. destruct K2 as [K2 _]. specialize (K2 eq_refl) as [_ K2]. split; [|exact Hp].
      apply (hull_trans (map dp t2) _ _ Hp). intros x Ix. apply in_map_iff in Ix as (v & <- & Iv). apply (proj1 C2 v Iv). exact (inside2_near_B A D h t2 t1 v (fit2_sym _ _ _ _ _ F) Tt1 Iv (K2 v Iv)).
    + destruct (L_C73_result Bmath delaunay t1 t2 (Some q) TT1 TT2 Yi) as (ps & _ & _ & _ & _ & _ & _ & _ & Hq & _).
      split; apply (hull_trans (map dp t) _ _ Hp); intros x Ix; apply in_map_iff in Ix as (v & <- & Iv); apply (dadmissible_in_B A D h t1 t2 v F C1 C2 Tt1 Tt2), (Hq t v Iq Iv).
Qed.
(** Nothing is lost for two triangles that cross properly or contain one another, if the
    distance test, which is also evaluated in binary64, keeps the first. *)
Lemma L_C100_nothing_lost : forall la, linalg_ok la ->
  forall delaunay o1 o2 r t1 t2 p A D h, tris o1 -> tris o2 -> In t1 o1 -> In t2 o2 ->
  triangulates (@Bmath la) delaunay ->
  dintersection (@Bmath la) delaunay false (A4 o1) (A4 o2) = Ok r ->
  fit_pair2 A D h t1 t2 -> neat_pair t1 t2 -> overlaps t1 t2 ->
  (forall c d, dcentroid_obj o2 = Ok c -> dball_radius_obj (@Bmath la) (A4 o2) c = Ok d -> rough_check_intersection_triangle_obj (@Bmath la) t1 c d = Ok true) ->
  hull (map dp t1) p -> hull (map dp t2) p ->
  (exists r', r = Some r' /\ dregion r' p) \/ thin2 t1 t2.
Proof.
  intros la LA. intros delaunay o1 o2 r t1 t2 p A D h T1 T2 I1 I2 Tri H F Nt Ov Ro H1 H2.
  assert (T1' := T1). assert (T2' := T2). unfold tris in T1', T2'. rewrite Forall_forall in T1', T2'.
  assert (Tt1 : tri1 t1) by exact (T1' t1 I1). assert (Tt2 : tri1 t2) by exact (T2' t2 I2).
  assert (TT1 : tris [t1]) by (constructor; [exact Tt1|constructor]). assert (TT2 : tris [t2]) by (constructor; [exact Tt2|constructor]).
  cbn [dintersection] in H. unfold dintersection_two_obj_1 in H. apply bind_Ok_inv in H as (c & Ec & H). apply bind_Ok_inv in H as (d & Ed & H).
  assert (Er := Ro c d Ec Ed).
  assert (I1' := I1). assert (I2' := I2). apply In_nth_error in I1' as (i & Hi). apply In_nth_error in I2' as (j & Hj).
  destruct (L_C74_complete _ _ _ _ _ _ i t1 j t2 H Hi Hj Er) as [C1 C2].
  destruct (classic (exists j' t', (j' < j)%nat /\ nth_error o2 j' = Some t' /\ check_intersection_two_triangles Bmath t1 t' = Ok 1%Z)) as [(j' & t' & _ & Hj' & E1)|X].
  { destruct (L_C74_complete _ _ _ _ _ _ i t1 j' t' H Hi Hj' Er) as [C1' _]. destruct (C1' E1) as (r' & -> & Ir). left. exists r'. split; [reflexivity|]. exists t1. split; assumption. }
  specialize (C2 (fun j' t' Lt Nt Et => X (ex_intro _ j' (ex_intro _ t' (conj Lt (conj Nt Et)))))).
  destruct (class_not_0_B A D h t1 t2 F Nt Tt1 Tt2 Ov) as (k & Ek & [-> | [-> | ->]]).
  - destruct (C1 Ek) as (r' & -> & Ir). left. exists r'. split; [reflexivity|]. exists t1. split; assumption.
  - destruct (C2 [t2]) as (r' & -> & Ir); [discriminate|left; split; [exact Ek|reflexivity]|].
    left. exists r'. split; [reflexivity|]. exists t2. split; [apply Ir; left; reflexivity|assumption].
  - destruct (dreached _ _ _ _ _ _ _ i j t1 t2 H Hi Hj Er) as (q & Eq); [|exact Ek|].
    { intros j' t' Lt Nt' Et. apply X. eauto. }
    cbn beta in Eq.
    destruct (L_C73_result Bmath delaunay t1 t2 q TT1 TT2 Eq) as (ps & Adm' & _ & Adm & Gp & Hq).
    assert (Span : forall x, hull (map dp t1) x -> hull (map dp t2) x -> hull (map dp ps) x).
    { intros x X1 X2. apply (common_span_B A D h t1 t2 F Nt Tt1 Tt2 x X1 X2 ps Adm). }
    assert (Lp : level h ps) by (apply Forall_forall; intros v Iv; apply (adm_level_B A D h t1 t2 v F Tt1 Tt2), Adm', Iv).
    destruct q as [q|].
    + destruct Hq as (Len & Nq & _ & _ & Three & More).
      destruct (C2 q Nq) as (r' & -> & Ir); [right; split; [exact Ek|exact Eq]|].
      assert (Rq : dregion q p \/ on_line (map dp ps)).
      { destruct (Nat.eq_dec (length ps) 3) as [E3|N3].
        - left. rewrite (Three E3). exists ps. split; [left; reflexivity|apply Span; assumption].
        - destruct (More ltac:(lia)) as [Et _]. destruct (dtri_covers_N Bmath h delaunay ps (Some q) p Tri Gp Lp Et (Span p H1 H2)) as [(r & E & R)|OL]; [|right; exact OL].
          injection E as <-. left. exact R. }
      destruct Rq as [(t & It & Ht)|OL].
      * left. exists r'. split; [reflexivity|]. exists t. split; [apply Ir; exact It|exact Ht].
      * right. apply (on_line_thin t1 t2 ps); assumption.
    + right. destruct Hq as [Few|[[Many Et]|(k & pp & Ek' & Few)]].
      * apply (on_line_thin t1 t2 ps); [|exact Span]. apply few_on_line. rewrite map_length. exact Few.
      * destruct (dtri_covers_N Bmath h delaunay ps None p Tri Gp Lp Et (Span p H1 H2)) as [(r' & E & _)|OL]; [discriminate|]. apply (on_line_thin t1 t2 ps); assumption.
      * exact (few_hits_B A D h t1 t2 F Nt Tt1 Tt2 k pp Ov Ek Ek' Few).
Qed.

Lemma edge_three s a b c : edge_of s [a; b; c] -> s = [a; b] \/ s = [a; c] \/ s = [b; c].
Proof.
  intros E. destruct (edge_two _ _ E) as (x & y & ->). destruct E as [S _].
  apply subseq_pair in S as [[-> I]|S]; [destruct I as [<-|[<-|[]]]; auto|].
  apply subseq_pair in S as [[-> I]|S]; [destruct I as [<-|[]]; auto|].
  apply subseq_pair in S as [[-> []]|S]. inversion S.
Qed.
Lemma parea_det h a b c : height (dp a) = h -> height (dp b) = h -> height (dp c) = h -> parea [a; b; c] = Rabs (det2 (sub3 (dp b) (dp a)) (sub3 (dp c) (dp a))) / 2.
Proof. intros Ha Hb Hc. rewrite (parea_tri h) by assumption. apply (tri_area_flat h); assumption. Qed.
Lemma sharp_of A D a b c d k l : 0 <= k -> 0 <= l -> k <= Rabs (turn a b c d) -> (let '(x, y, z) := sub3 (dp d) (dp c) in l ^ 2 <= x * x + y * y + z * z) ->
  (A + D) * D ^ 4 <= 50000 * (k ^ 2 * l) -> sharp2 A D [a; b] [c; d].
Proof.
  intros Hk Hl Kt Ld H a' b' c' d' E1 E2. injection E1 as <- <-. injection E2 as <- <-. right.
  assert (L : l <= dist3 (dp d) (dp c)).
  { unfold dist3, norm3. destruct (sub3 (dp d) (dp c)) as [[x y] z]. rewrite <- (sqrt_Rsqr l Hl). apply sqrt_le_1_alt. unfold Rsqr. cbn in Ld |- *. lra. }
  assert (T : k ^ 2 <= turn a b c d ^ 2) by (rewrite <- (pow2_abs (turn a b c d)); apply pow_incr; lra).
  assert (k ^ 2 * l <= turn a b c d ^ 2 * dist3 (dp d) (dp c)) by (apply Rmult_le_compat; try assumption; apply pow2_ge_0). lra.
Qed.
Lemma sharp_flat A D a b c d : turn a b c d = 0 -> sharp2 A D [a; b] [c; d].
Proof. intros Z a' b' c' d' E1 E2. injection E1 as <- <-. injection E2 as <- <-. left. exact Z. Qed.

Ltac dpq := unfold q; cbn [map app concat]; rewrite ?dp_o6, ?dp_x2, ?dp_x3, ?dp_pl; unfold val; cbn.
Ltac dpq_in H := unfold q in H; cbn [map app concat] in H; rewrite ?dp_o6, ?dp_x2, ?dp_x3, ?dp_pl in H; unfold val in H; cbn in H.
Ltac coefs2 := split; [reflexivity|]; unfold q, pl, o6, x2, x3, iv; cbn [map]; repeat (apply Forall_cons; [cbn; repeat split; try lia; unfold Rabs; repeat destruct (Rcase_abs _); lra|]); constructor.
Ltac lev2 := unfold level; repeat (apply Forall_cons; [dpq; reflexivity|]); constructor.
Ltac spr := let p := fresh in let r := fresh in let Ip := fresh in let Ir := fresh in
  dpq; intros p r Ip Ir; cbn [In] in Ip, Ir; repeat (destruct Ip as [<-|Ip]; [repeat (destruct Ir as [<-|Ir]; [unfold apart_le; cbn; split; [|split]; apply Rabs_le; lra|]); destruct Ir|]); destruct Ip.
Ltac tam := cbn [app]; split; [lra|]; split; [lra|]; split; [lra|]; split; [repeat (apply Forall_cons; [coefs2|]); constructor|]; split; [spr|lev2].
Ltac abig := first [rewrite Rabs_pos_eq by (dpq; lra)|rewrite Rabs_left1 by (dpq; lra)].
Ltac plu := unfold plump2; rewrite (parea_det 0) by (dpq; reflexivity); abig; dpq; lra.
Ltac shp k l := first [apply sharp_flat; unfold turn; dpq; lra|apply (sharp_of _ _ _ _ _ _ k l); [lra|lra|unfold turn; abig; dpq; lra|dpq; lra|lra]].
Ltac bars l := match goal with |- hull ?ps ?p => exists l; split; [split; [reflexivity|split; [unfold Rsum; cbn; lra|dpq; unfold o3; cbn; apply f_equal2; [apply f_equal2|]; field]]|repeat (apply Forall_cons; [lra|]); constructor] end.

(** Segments that meet in an end point of one of them can be missed: the test with the
    exact numbers accepts them, the test in binary64 does not. *)
Lemma L_C99_touch_refuted : exists A D h a b c d, goods 6 [a; b; c; d] /\ tame2 A D h [a; b; c; d] /\ sharp2 A D [a; b] [c; d] /\ 1/4 <= turn a b c d ^ 2 /\
  hull (map dp [a; b]) (dp c) /\
  dcheck_intersection_two_segment_numerical_6d_tau Rnum [a; b] [c; d] = Ok true /\
  dcheck_intersection_two_segment_numerical_6d_tau Bnum [a; b] [c; d] = Ok false.
Proof.
  set (a := o6). set (b := pl (T 8 0 3) (T 1 0 3)). set (c := pl (T 8 0 9) (T 1 0 9)). set (d := pl (T 1 0 9) (T 8 0 9)).
  assert (G : goods 6 [a; b; c; d]) by (unfold a, b, c, d, pl, o6, iv; gd).
  assert (H : hull (map dp [a; b]) (dp c)) by (unfold a, b, c; bars [2/3; 1/3]).
  exists 3, 5, 0, a, b, c, d. split; [exact G|].
  split; [unfold a, b, c, d; tam|]. split; [unfold a, b, c, d; shp (1/2) 1|]. split; [unfold turn, a, b, c, d; dpq; lra|]. split; [exact H|].
  split; [|vm_cast_no_check (eq_refl (@Ok bool false))].
  apply (L_C71_test 0); [exact G|unfold a, b, c, d; lev2|]. split; [unfold a, b, c, d; dpq; lra|]. exists (dp c). split; [exact H|apply hull_mem; left; reflexivity].
Qed.
(** For that reason overlapping triangles can have an empty intersection: the triangle t lies
    in t1 and in t2, and no edges cross away from their ends. *)
Lemma L_C100_touch_refuted : exists A D h t1 t2 t, tris [t1; t2; t] /\ fit_pair2 A D h t1 t2 /\ 1/4 <= parea t /\
  (forall p, hull (map dp t) p -> hull (map dp t1) p /\ hull (map dp t2) p) /\
  forall delaunay, dintersection Bnum delaunay false (A4 [t1]) (A4 [t2]) = Ok None.
Proof.
  exists 3, 5, 0, triU, triV, triW. split; [unfold triU, triV, triW, pl, o6, iv; gd|]. split.
  { split; [unfold triU, triV; tam|]. split; [unfold triU; plu|]. split; [unfold triV; plu|].
    intros s e Es Ee. unfold triU in Es. unfold triV in Ee. apply edge_three in Es, Ee.
    destruct Es as [-> | [-> | ->]], Ee as [-> | [-> | ->]]; split; shp (1/2) 1. }
  split; [unfold triW; rewrite (parea_det 0) by (dpq; reflexivity); abig; dpq; lra|]. split.
  { intros p Hp. split; apply (hull_trans (map dp triW) _ _ Hp); intros x Ix; apply in_map_iff in Ix as (v & <- & Iv); unfold triW in Iv; cbn [In] in Iv;
      destruct Iv as [<-|[<-|[<-|[]]]]; unfold triU, triV.
    - bars [1; 0; 0].
    - bars [2/3; 1/3; 0].
    - bars [2/3; 0; 1/3].
    - bars [2/5; 2/5; 1/5].
    - bars [1; 0; 0].
    - bars [0; 1; 0]. }
  intros delaunay. vm_cast_no_check (eq_refl (@Ok (option obj4) None)).
Qed.

Lemma plane_points_length N ps q : plane_points N ps = Ok q -> length q = length ps.
Proof. intros E. apply mapM_length in E. exact E. Qed.
(** Triangulations as the theorem asks for exist: the one that returns all triples. *)
Example E_C100_triangulation : exists delaunay, triangulates Bnum delaunay.
Proof.
  exists (fun q => Some (triples (length q))). intros ps q G E. rewrite (plane_points_length _ _ _ E).
  destruct (classic (on_line (map dp ps))) as [L|L]; [right; exact L|left].
  set (es := map (fun v => firstn 2 (dppoint v)) ps). replace (length ps) with (length es) by apply map_length.
  apply triples_cover. intros O. apply L, on_line_fl. revert O. unfold es. rewrite !map_map. erewrite map_ext; [intros O; exact O|]. intros v. apply fl_dp.
Qed.

Lemma near_of m a b c d (P : R3 -> Prop) :
  (forall x y, - m <= x <= 1 + m -> - m <= y <= 1 + m -> add3 (dp a) (scale3 x (sub3 (dp b) (dp a))) = add3 (dp c) (scale3 y (sub3 (dp d) (dp c))) -> P (add3 (dp a) (scale3 x (sub3 (dp b) (dp a))))) ->
  forall p, near m (map dp [a; b]) p -> near m (map dp [c; d]) p -> P p.
Proof. intros H p N1 N2. cbn [map] in *. apply seg_param in N1 as (x & Hx & ->). apply seg_param in N2 as (y & Hy & E). exact (H x y Hx Hy E). Qed.
Lemma cross_of m a b c d x y : m <= x <= 1 - m -> m <= y <= 1 - m -> add3 (dp a) (scale3 x (sub3 (dp b) (dp a))) = add3 (dp c) (scale3 y (sub3 (dp d) (dp c))) ->
  near (- m) (map dp [a; b]) (add3 (dp a) (scale3 x (sub3 (dp b) (dp a)))) /\ near (- m) (map dp [c; d]) (add3 (dp a) (scale3 x (sub3 (dp b) (dp a)))).
Proof. intros Hx Hy E. cbn [map]. split; [|rewrite E]; apply on_seg; assumption. Qed.
Lemma near_hull0 ps p : near (- 0) ps p -> hull ps p.
Proof. intros (ws & B & P). exists ws. split; [exact B|]. eapply Forall_impl; [|exact P]. cbn. intros. lra. Qed.
(** The parameters of a common point of two given segments. *)
Ltac params E := dpq_in E; injection E; clear E; intros; repeat match goal with H : _ = 0 |- _ => revert H end; intros.
(** C99: a point inside and one outside a triangle, two segments that cross and two that are
    parallel. *)
Example E_C99_ex : tame2 2 2 0 (q 1 1 :: triA) /\ tame2 2 2 0 (q 3 3 :: triA) /\ plump2 2 2 triA /\ hull (map dp triA) (dp (q 1 1)) /\
  bary [-1/2; 3/4; 3/4] (map dp triA) (dp (q 3 3)) /\
  tame2 2 2 0 [x2; x3; q 1 1; q 5 1] /\ sharp2 2 2 [x2; x3] [q 1 1; q 5 1] /\ turn x2 x3 (q 1 1) (q 5 1) = -1 /\ crosses_at [x2; x3] [q 1 1; q 5 1] (dp (q 3 1)) /\
  tame2 2 2 0 [o6; x2; q 1 1; q 5 1] /\ turn o6 x2 (q 1 1) (q 5 1) = 0.
Proof.
  split; [unfold triA; tam|]. split; [unfold triA; tam|]. split; [unfold triA; plu|]. split; [unfold triA; bars [1/2; 1/4; 1/4]|].
  split; [unfold triA; split; [reflexivity|split; [unfold Rsum; cbn; lra|dpq; unfold o3; cbn; apply f_equal2; [apply f_equal2|]; field]]|].
  split; [tam|]. split; [shp 1 1|]. split; [unfold turn; dpq; lra|].
  split. { split; [exists [3/4; 1/4]|exists [1/2; 1/2]]; (split; [split; [reflexivity|split; [unfold Rsum; cbn; lra|dpq; unfold o3; cbn; apply f_equal2; [apply f_equal2|]; field]]|repeat (apply Forall_cons; [lra|]); constructor]). }
  split; [tam|]. unfold turn; dpq; lra.
Qed.

Lemma clear_corner v a b c (P : Prop) : (forall x y z, - (1/1000000) <= x -> - (1/1000000) <= y -> - (1/1000000) <= z -> x + y + z = 1 ->
    dp v = add3 (scale3 x (dp a)) (add3 (scale3 y (dp b)) (scale3 z (dp c))) -> P) -> near (1/1000000) (map dp [a; b; c]) (dp v) -> P.
Proof.
  intros H (ws & (L & S & E) & N). destruct ws as [|x [|y [|z [|]]]]; try discriminate L. inversion N as [|? ? Nx N1]; subst. inversion N1 as [|? ? Ny N2]; subst. inversion N2 as [|? ? Nz _]; subst.
  apply (H x y z); try assumption; [cbn in S; lra|]. rewrite E. cbn [map comb]. generalize (dp a) (dp b) (dp c). intros [[a0 a1] a2] [[b0 b1] b2] [[c0 c1] c2]. unfold o3. cbn. apply f_equal2; [apply f_equal2|]; ring.
Qed.
Ltac clr t u := split;
  [intros v Iv; unfold t in Iv; cbn [In] in Iv; unfold u; destruct Iv as [<-|[<-|[<-|[]]]];
    (first [solve [intros _; apply hull_mem; cbn [map In]; tauto|intros _; bars [1/2; 1/4; 1/4]]
           |apply clear_corner; intros x y z Hx Hy Hz Hs E; exfalso; dpq_in E; injection E; intros; lra])
  |intros a b c d p Es Ee; unfold t in Es; unfold u in Ee; apply edge_three in Es, Ee; intros Nz; revert p;
   destruct Es as [Es | [Es | Es]], Ee as [Ee | [Ee | Ee]]; injection Es as -> ->; injection Ee as -> ->;
   (first [exfalso; apply Nz; unfold turn; dpq; lra
          |apply near_of; intros x y Hx Hy E; assert (E' := E); dpq_in E'; injection E'; intros;
           match goal with |- hull ?A ?p /\ hull ?B ?p => enough (near (- 0) A p /\ near (- 0) B p) as [? ?] by (split; apply near_hull0; assumption) end;
           apply (fun X Y => cross_of _ _ _ _ _ x y X Y E); lra])].
(** C100: two triangles that overlap without containing one another meet all hypotheses. *)
Example E_C100_ex : tris [triA] /\ tris [triB] /\ fit_pair2 2 2 0 triA triB /\ clear3_pair triA triB /\ clear3_pair triB triA /\ neat_pair triA triB /\ overlaps triA triB /\
  (forall c d, dcentroid_obj [triB] = Ok c -> dball_radius_obj Bnum (A4 [triB]) c = Ok d -> rough_check_intersection_triangle_obj Bnum triA c d = Ok true) /\
  hull (map dp triA) (dp (q 1 1)) /\ hull (map dp triB) (dp (q 1 1)) /\
  dintersection Bnum (fun _ => None) false (A4 [triA]) (A4 [triB]) = Ok (Some [[q 1 1; q 1 3; q 3 1]]).
Proof.
  split; [gd|]. split; [gd|]. split.
  { split; [unfold triA, triB; tam|]. split; [unfold triA; plu|]. split; [unfold triB; plu|].
    intros s e Es Ee. unfold triA in Es. unfold triB in Ee. apply edge_three in Es, Ee. destruct Es as [-> | [-> | ->]], Ee as [-> | [-> | ->]]; split; shp 1 1. }
  split; [clr triA triB|]. split; [clr triB triA|]. split.
  { intros a b c d Es Ee; unfold triA in Es; unfold triB in Ee; apply edge_three in Es, Ee.
    destruct Es as [Es | [Es | Es]], Ee as [Ee | [Ee | Ee]]; injection Es as -> ->; injection Ee as -> ->;
    (first [left; unfold turn; dpq; lra|right; split; [unfold turn; dpq; lra|]; intros p H1 H2; left; apply hull_near0 in H1, H2; revert p H1 H2]);
    unfold crosses_at; apply near_of; intros x y Hx Hy E; assert (E' := E); dpq_in E'; injection E'; intros; (apply (fun X Y => cross_of _ _ _ _ _ x y X Y E); lra). }
  split.
  { right. right. exists x2, x3, (q 1 1), (q 5 1), (dp (q 3 1)). split; [split; [unfold triA; sub3l|reflexivity]|]. split; [split; [unfold triB; sub3l|reflexivity]|].
    split; [unfold turn; dpq; lra|]. split; [exists [3/4; 1/4]|exists [1/2; 1/2]]; (split; [split; [reflexivity|split; [unfold Rsum; cbn; lra|dpq; unfold o3; cbn; apply f_equal2; [apply f_equal2|]; field]]|repeat (apply Forall_cons; [lra|]); constructor]). }
  split.
  { intros c d Ec Ed.
    assert (X : bind (dcentroid_obj [triB]) (fun c => bind (dball_radius_obj Bnum (A4 [triB]) c) (fun d => rough_check_intersection_triangle_obj Bnum triA c d)) = Ok true) by (vm_cast_no_check (eq_refl (@Ok bool true))).
    rewrite Ec in X. cbn [bind] in X. rewrite Ed in X. exact X. }
  split; [unfold triA; bars [1/2; 1/4; 1/4]|]. split; [apply hull_mem; left; reflexivity|].
  match goal with |- _ = ?r => vm_cast_no_check (eq_refl r) end.
Qed.

(** The textbook np.dot and np.linalg.det meet the bounds asked of la. *)
Example E_C99_linalg : linalg_ok textbook.
Proof. exact Proofs.LinAlgLemmas.textbook_ok. Qed.
