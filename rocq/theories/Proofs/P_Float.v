(** What the geometric tests of ico2/numericalc.py and the intersection of ico2 objects
    give in binary64: C93, C94, C95.
    Here la is any np.dot and np.linalg.det accurate to the bounds of Spec/LinAlg; C108 says
    which evaluations are.  Examples and refutations use the textbook ones (Bnum). *)
From Coq Require Import Reals List ZArith Lia Lra Bool.
From Flocq Require Import IEEE754.Binary.
From Verif Require Import Base.Res Model.Tau Model.Arr Model.Num Model.IcoNumeric Model.IcoMath1 Model.IcoIntersect
  Spec.LinAlg Spec.Value Spec.RVec Spec.Shape Spec.IcoSpec Spec.Sets Spec.Space Spec.Tetra Spec.Samples Spec.Region Spec.Overlap Spec.Convex Spec.Float.
Import ListNotations.
Local Open Scope R_scope.

From Verif Require Proofs.LinAlgLemmas.
From Verif Require Import Proofs.ResLemmas Proofs.NumLemmas Proofs.IntersectLemmas Proofs.ObjLemmas Proofs.DedupLemmas Proofs.P_Numeric Proofs.P_Intersect
  Proofs.Irrational Proofs.Polytope Proofs.OverlapLemmas Proofs.P_Overlap Proofs.P_Convex Proofs.P_Subtract Proofs.FloatGeom Proofs.FloatTests Proofs.FloatOverlap.

(** C93: the perpendicular coordinates computed from exact numbers of size A are finite and
    off by at most 10 A / 2^51. *)
Lemma L_C93_projection : forall (la : linalg) A v, 1 <= A <= 1000000 -> coefs A v -> exists x y z p q r, internal (@Bmath la) v = Ok (x, y, z) /\ pp v = (p, q, r) /\
  is_finite 53 1024 x = true /\ is_finite 53 1024 y = true /\ is_finite 53 1024 z = true /\
  Rabs (B2R 53 1024 x - p) <= 10 * A / 2^51 /\ Rabs (B2R 53 1024 y - q) <= 10 * A / 2^51 /\ Rabs (B2R 53 1024 z - r) <= 10 * A / 2^51.
Proof.
  intros la. intros A v HA C. destruct (internal_B A v HA C) as (((x & y) & z) & E & H). destruct (pp v) as [[p q] r]. destruct H as ([Fx Hx] & [Fy Hy] & [Fz Hz]).
  replace (2 ^ 51) with 2251799813685248 by ring. exists x, y, z, p, q, r. auto 10.
Qed.

(** Every point of a closed tetrahedron is accepted ... *)
Lemma L_C93_inside : forall la, linalg_ok la ->
  forall A D v t, tame A D (v :: t) -> length t = 4%nat -> plump A D t ->
  hull (map pp t) (pp v) -> inside_outside_tetrahedron_tau (@Bmath la) v t = Ok true.
Proof. intros la LA. intros A D v t T L P. exact (proj1 (inside_B A D v t T L P)). Qed.
(** ... and every point with a barycentric coordinate of at most -1e-6 is rejected. *)
Lemma L_C93_outside : forall la, linalg_ok la ->
  forall A D v t ws w, tame A D (v :: t) -> length t = 4%nat -> plump A D t ->
  bary ws (map pp t) (pp v) -> In w ws -> w <= - (1/1000000) -> inside_outside_tetrahedron_tau (@Bmath la) v t = Ok false.
Proof. intros la LA. intros A D v t ws w T L P. exact (proj2 (inside_B A D v t T L P) ws w). Qed.

Lemma far_pp z n a b c : (n <> 0)%Z -> pp (far_by z (at3 n a b c)) = add3 (ax (IZR z, 0, 0)) (pp (at3 n a b c)).
Proof. intros N. rewrite (pp_at3 n a b c N). apply IZR_neq in N. unfold far_by, at3, pp, ax. cbn. unfold val. cbn. rewrite plus_IZR, mult_IZR. apply f_equal2; [apply f_equal2|]; field; auto. Qed.

(** Far from the origin the same test rejects points of the tetrahedron: the midpoint of an
    edge of a tetrahedron of ordinary size moved by 1e11 lattice steps. *)
Lemma L_C93_large_refuted : exists v t, coefs 200000000000 v /\ length t = 4%nat /\ Forall (coefs 200000000000) t /\ spread 5 (map pp t) /\ 1/10 <= pvol t /\
  hull (map pp t) (pp v) /\ inside_outside_tetrahedron_tau Bnum v t = Ok false.
Proof.
  exists (far_by 100000000000 (at3 2 1 1 0)), (map (far_by 100000000000) tetP).
  assert (E : map pp (map (far_by 100000000000) tetP) = map (fun p => add3 (ax (100000000000, 0, 0)) (ax p)) cP).
  { unfold tetP, cP. cbn [map]. rewrite !far_pp by lia. rewrite !pp_at3 by lia. repeat (apply f_equal2; [f_equal; f_equal; eqs|]). reflexivity. }
  split. { split; [reflexivity|]. unfold far_by, at3. repeat (apply Forall_cons; [cbn; repeat split; try lia; rewrite ?Rabs_R0; repeat rewrite Rabs_right by lra; lra|]). constructor. }
  split; [reflexivity|].
  split. { unfold tetP. cbn [map]. repeat (apply Forall_cons; [split; [reflexivity|]; unfold far_by, at3; repeat (apply Forall_cons; [cbn; repeat split; try lia; rewrite ?Rabs_R0; repeat rewrite Rabs_right by lra; lra|]); constructor|]). constructor. }
  split. { rewrite E. intros p q Ip Iq. unfold cP in Ip, Iq. cbn [map In] in Ip, Iq. pose proof TAU_bounds.
    repeat (destruct Ip as [<-|Ip]; [repeat (destruct Iq as [<-|Iq]; [unfold apart_le, ax; cbn; split; [|split]; apply Rabs_le; lra|]); destruct Iq|]); destruct Ip. }
  split. { change (map (far_by 100000000000) tetP) with [far_by 100000000000 (at3 1 0 0 0); far_by 100000000000 (at3 1 1 0 0); far_by 100000000000 (at3 1 0 1 0); far_by 100000000000 (at3 1 0 0 1)] in *.
    rewrite pvol_vol3. rewrite !far_pp by lia. rewrite !pp_at3 by lia. unfold vol3, ax. cbn. pose proof TAU_bounds. pose proof TAU_sq as S.
    match goal with |- _ <= Rabs ?x / 6 => replace x with (- (TAU * (TAU * TAU) + 1)) by (field; lra) end. rewrite S, Rabs_Ropp, Rabs_right by nra. nra. }
  split. { rewrite E. rewrite far_pp, pp_at3 by lia. exists [0; 1/2; 1/2; 0]. split; [|repeat (apply Forall_cons; [lra|]); constructor]. split; [reflexivity|]. split; [cbn; lra|].
    unfold cP, ax, comb, o3. cbn. apply f_equal2; [apply f_equal2|]; field. }
  match goal with |- _ = ?r => vm_cast_no_check (eq_refl r) end.
Qed.

(** C94: a segment exactly parallel to the triangle never meets it. *)
Lemma L_C94_parallel : forall la, linalg_ok la ->
  forall A D a b c d e, tame A D [a; b; c; d; e] -> incline a b c d e = 0 ->
  check_intersection_segment_surface_numerical_6d_tau (@Bmath la) [a; b] [c; d; e] = Ok false.
Proof. intros la LA. intros A D a b c d e T. exact (proj1 (crossing_B A D a b c d e T)). Qed.
Lemma weights2 (a b p : R3) : hull [a; b] p -> exists t, 0 <= t <= 1 /\ p = add3 a (scale3 t (sub3 b a)).
Proof.
  intros (ws & (L & S & E) & P). destruct ws as [|w0 [|w1 [|]]]; try discriminate L. cbn [Rsum] in S. rewrite Forall_forall in P.
  pose proof (P w0 ltac:(cbn; auto)). pose proof (P w1 ltac:(cbn; auto)). assert (w0 = 1 - w1) by lra. subst w0. exists w1. split; [lra|].
  rewrite E. destruct a as [[? ?] ?], b as [[? ?] ?]. unfold o3. cbn. apply f_equal2; [apply f_equal2|]; ring.
Qed.
Lemma weights3 (c d e p : R3) : hull [c; d; e] p -> exists u v, 0 <= u /\ 0 <= v /\ u + v <= 1 /\ p = add3 c (add3 (scale3 u (sub3 d c)) (scale3 v (sub3 e c))).
Proof.
  intros (ws & (L & S & E) & P). destruct ws as [|w0 [|w1 [|w2 [|]]]]; try discriminate L. cbn [Rsum] in S. rewrite Forall_forall in P.
  pose proof (P w0 ltac:(cbn; auto)). pose proof (P w1 ltac:(cbn; auto)). pose proof (P w2 ltac:(cbn; auto)). assert (w0 = 1 - w1 - w2) by lra. subst w0. exists w1, w2. split; [lra|]. split; [lra|]. split; [lra|].
  rewrite E. destruct c as [[? ?] ?], d as [[? ?] ?], e as [[? ?] ?]. unfold o3. cbn. apply f_equal2; [apply f_equal2|]; ring.
Qed.
(** A segment that crosses the triangle is always recognised ... *)
Lemma L_C94_meets : forall la, linalg_ok la ->
  forall A D a b c d e p, tame A D [a; b; c; d; e] ->
  (A + D) * D ^ 2 <= 200000 * Rabs (incline a b c d e) -> 12/10000000 <= Rabs (incline a b c d e) ->
  hull (map pp [a; b]) p -> hull (map pp [c; d; e]) p ->
  check_intersection_segment_surface_numerical_6d_tau (@Bmath la) [a; b] [c; d; e] = Ok true.
Proof.
  intros la LA. intros A D a b c d e p T Big St H1 H2. cbn [map] in *. apply weights2 in H1 as (t & Ht & E1). apply weights3 in H2 as (u & v & Hu & Hv & Huv & E2).
  apply (proj2 (proj2 (crossing_B A D a b c d e T) Big u v t ltac:(congruence))); assumption.
Qed.
(** ... and one that is recognised has a point within 2e-6 of both, in barycentric coordinates. *)
Lemma L_C94_sound : forall la, linalg_ok la ->
  forall A D a b c d e, tame A D [a; b; c; d; e] -> sharp A D [a; b] [c; d; e] ->
  check_intersection_segment_surface_numerical_6d_tau (@Bmath la) [a; b] [c; d; e] = Ok true ->
  exists p, near (2/1000000) (map pp [a; b]) p /\ near (2/1000000) (map pp [c; d; e]) p.
Proof.
  intros la LA. intros A D a b c d e T Sh Ck. destruct (crossing_B A D a b c d e T) as [Par Cr].
  destruct (Sh a b c d e eq_refl eq_refl) as [Z|Big]; [rewrite (Par Z) in Ck; discriminate|].
  assert (Nz : incline a b c d e <> 0).
  { intros Z. rewrite Z, Rabs_R0 in Big. destruct T as (HA & HD & _). assert (0 < (A + D) * D ^ 2) by (apply Rmult_lt_0_compat; [lra|apply pow_lt; lra]). lra. }
  destruct (plane_solution _ _ _ _ _ Nz) as (u & w & t & Sol). destruct (Cr Big u w t Sol) as [R _]. destruct (R Ck) as (U & W & UW & Ht).
  exists (add3 (pp a) (scale3 t (sub3 (pp b) (pp a)))). cbn [map]. split; [apply on_line; lra|]. rewrite Sol. apply in_plane; lra.
Qed.

(** C95: two tetrahedra with a common point are never classified as disjoint. *)
Lemma L_C95_class : forall la, linalg_ok la ->
  forall A D t1 t2 p, fit_pair A D t1 t2 -> steep t1 t2 -> steep t2 t1 -> tets [t1; t2] ->
  hull (map pp t1) p -> hull (map pp t2) p -> exists k, check_intersection_two_tetrahedron_4 (@Bmath la) t1 t2 = Ok k /\ (k = 1 \/ k = 2 \/ k = 3)%Z.
Proof.
  intros la LA. intros A D t1 t2 p F S1 S2 T. inversion T as [|? ? [L1 G1] T']; subst. inversion T' as [|? ? [L2 G2] _]; subst. exact (class_not_0_B A D t1 t2 p F S1 S2 L1 G1 L2 G2).
Qed.
(** Every point of an intersection computed in binary64 lies in a tetrahedron of each object
    up to 2e-6 in barycentric coordinates, whatever the triangulation and the samples. *)
Lemma L_C95_sound : forall la, linalg_ok la ->
  forall delaunay draws o1 o2 r p, tets o1 -> tets o2 ->
  (forall t1 t2, In t1 o1 -> In t2 o2 -> exists A D, fit_pair A D t1 t2) ->
  intersection (@Bmath la) delaunay draws false (A4 o1) (A4 o2) = Ok (Some r) -> region r p ->
  exists t1 t2, In t1 o1 /\ In t2 o2 /\ near (2/1000000) (map pp t1) p /\ near (2/1000000) (map pp t2) p.
Proof.
  intros la LA. intros delaunay draws o1 o2 r p T1 T2 Fit H (t & It & Hp).
  unfold tets in T1, T2. rewrite Forall_forall in T1, T2.
  cbn [intersection] in H. unfold intersection_two_obj_1 in H. apply bind_Ok_inv in H as (c & Ec & H). apply bind_Ok_inv in H as (d & Ed & H).
  destruct (L_C36_members _ _ _ _ _ _ _ H t It) as (i & j & t1 & t2 & N1 & N2 & _ & Y).
  apply nth_error_In in N1, N2. destruct (T1 t1 N1) as [L1 G1]. destruct (T2 t2 N2) as [L2 G2]. destruct (Fit t1 t2 N1 N2) as (A & D & F).
  exists t1, t2. split; [exact N1|]. split; [exact N2|].
  destruct (L_C33_classes Bmath t1 t2 L1 G1 L2 G2) as (k & Ek & K1 & K2 & K3 & _).
  destruct Y as [[Y ->]|(q & Y & [Iq|[Bad _]])]; [| |discriminate].
  - rewrite Y in Ek. injection Ek as <-. destruct K1 as [K1 _]. specialize (K1 eq_refl). split.
    + apply (near_weaken 0); [lra|]. apply hull_near0. exact Hp.
    + apply (near_hull _ (map pp t1) _ _ Hp). intros x Ix. apply in_map_iff in Ix as (v & <- & Iv). apply (near_weaken (1/1000000)); [lra|]. exact (inside_near_B A D t1 t2 v F L2 Iv (K1 v Iv)).
  - destruct Y as [[Y ->]|[Y Yi]].
    + destruct Iq as [<-|[]]. rewrite Y in Ek. injection Ek as <-. destruct K2 as [K2 _]. specialize (K2 eq_refl) as [_ K2]. split.
      * apply (near_hull _ (map pp t2) _ _ Hp). intros x Ix. apply in_map_iff in Ix as (v & <- & Iv). apply (near_weaken (1/1000000)); [lra|]. exact (inside_near_B A D t2 t1 v (fit_sym _ _ _ _ F) L1 Iv (K2 v Iv)).
      * apply (near_weaken 0); [lra|]. apply hull_near0. exact Hp.
    + destruct (L_C35_result Bmath delaunay (draws i j) t1 t2 (Some q) L1 G1 L2 G2 Yi) as (ps & _ & _ & _ & _ & _ & _ & _ & Hq & _).
      destruct (Hq t Iq) as [_ Ht].
      split; apply (near_hull _ (map pp t) _ _ Hp); intros x Ix; apply in_map_iff in Ix as (v & <- & Iv); apply (admissible_near_B A D t1 t2 v F L1 G1 L2 G2 (Ht v Iv)).
Qed.
(** If no vertex and no crossing point lies within 2e-6 outside, the result lies exactly in
    both objects. *)
Lemma L_C95_sound_exact : forall la, linalg_ok la ->
  forall delaunay draws o1 o2 r p, tets o1 -> tets o2 ->
  (forall t1 t2, In t1 o1 -> In t2 o2 -> (exists A D, fit_pair A D t1 t2) /\ clear2_pair t1 t2 /\ clear2_pair t2 t1) ->
  intersection (@Bmath la) delaunay draws false (A4 o1) (A4 o2) = Ok (Some r) -> region r p -> region o1 p /\ region o2 p.
Proof.
  intros la LA. intros delaunay draws o1 o2 r p T1 T2 Fit H (t & It & Hp).
  unfold tets in T1, T2. rewrite Forall_forall in T1, T2.
  cbn [intersection] in H. unfold intersection_two_obj_1 in H. apply bind_Ok_inv in H as (c & Ec & H). apply bind_Ok_inv in H as (d & Ed & H).
  destruct (L_C36_members _ _ _ _ _ _ _ H t It) as (i & j & t1 & t2 & N1 & N2 & _ & Y).
  apply nth_error_In in N1, N2. destruct (T1 t1 N1) as [L1 G1]. destruct (T2 t2 N2) as [L2 G2]. destruct (Fit t1 t2 N1 N2) as ((A & D & F) & C1 & C2).
  enough (G : hull (map pp t1) p /\ hull (map pp t2) p) by (destruct G; split; [exists t1|exists t2]; auto).
  destruct (L_C33_classes Bmath t1 t2 L1 G1 L2 G2) as (k & Ek & K1 & K2 & K3 & _).
  destruct Y as [[Y ->]|(q & Y & [Iq|[Bad _]])]; [| |discriminate].
  - rewrite Y in Ek. injection Ek as <-. destruct K1 as [K1 _]. specialize (K1 eq_refl). split; [exact Hp|].
    apply (hull_trans (map pp t1) _ _ Hp). intros x Ix. apply in_map_iff in Ix as (v & <- & Iv). apply (proj1 C1 v Iv). apply (near_weaken (1/1000000)); [lra|]. exact (inside_near_B A D t1 t2 v F L2 Iv (K1 v Iv)).
  - destruct Y as [[Y ->]|[Y Yi]].
    + destruct Iq as [<-|[]]. rewrite Y in Ek. injection Ek as <-. destruct K2 as [K2 _]. specialize (K2 eq_refl) as [_ K2]. split; [|exact Hp].
      apply (hull_trans (map pp t2) _ _ Hp). intros x Ix. apply in_map_iff in Ix as (v & <- & Iv). apply (proj1 C2 v Iv). apply (near_weaken (1/1000000)); [lra|]. exact (inside_near_B A D t2 t1 v (fit_sym _ _ _ _ F) L1 Iv (K2 v Iv)).
    + destruct (L_C35_result Bmath delaunay (draws i j) t1 t2 (Some q) L1 G1 L2 G2 Yi) as (ps & _ & _ & _ & _ & _ & _ & _ & Hq & _).
      destruct (Hq t Iq) as [_ Ht].
      split; apply (hull_trans (map pp t) _ _ Hp); intros x Ix; apply in_map_iff in Ix as (v & <- & Iv); apply (admissible_in_B A D t1 t2 v F C1 C2 L1 G1 L2 G2 (Ht v Iv)).
Qed.

(** The conditions in coordinates along three basis vectors. *)
Definition corners2 (c1 c2 : list R3) : Prop := forall v p q r, In v c1 ->
  v = comb [1 - p - q - r; p; q; r] c2 -> - (2/1000000) <= 1 - p - q - r -> - (2/1000000) <= p -> - (2/1000000) <= q -> - (2/1000000) <= r ->
  0 <= 1 - p - q - r /\ 0 <= p /\ 0 <= q /\ 0 <= r.
Definition meets2 (c1 c2 : list R3) : Prop := forall a b c d e, In (a, b) (edges4 c1) -> In (c, d, e) (faces4 c2) ->
  triple3 (sub3 b a) (sub3 d c) (sub3 e c) = 0 \/ (1/1000 <= Rabs (triple3 (sub3 b a) (sub3 d c) (sub3 e c)) /\
    forall p q r, comb [1 - p; p] [a; b] = comb [1 - q - r; q; r] [c; d; e] -> - (2/1000000) <= p -> p <= 1 + 2/1000000 ->
     - (2/1000000) <= 1 - q - r -> - (2/1000000) <= q -> - (2/1000000) <= r -> 0 <= p <= 1 /\ 0 <= 1 - q - r /\ 0 <= q /\ 0 <= r).
Section Pair2.
Variables t1 t2 : vecs.
Variables c1 c2 : list R3.
Hypothesis E1 : map pp t1 = map ax c1.
Hypothesis E2 : map pp t2 = map ax c2.
Hypothesis L1 : length c1 = 4%nat.
Hypothesis L2 : length c2 = 4%nat.
Lemma lift_edge a b : edge_of [a; b] t1 -> exists a' b', pp a = ax a' /\ pp b = ax b' /\ In (a', b') (edges4 c1).
Proof.
  assert (Lt1 : length t1 = 4%nat) by (rewrite <- (map_length pp), E1, map_length; exact L1).
  intros [Es _]. destruct t1 as [|u0 [|u1 [|u2 [|u3 [|]]]]]; try discriminate Lt1. destruct c1 as [|v0 [|v1 [|v2 [|v3 [|]]]]]; try discriminate L1.
  apply subseq2 in Es; [|reflexivity]. cbn [map] in E1. injection E1 as F0 F1 F2 F3. cbn [In] in Es. cbn [edges4].
  destruct Es as [I|[I|[I|[I|[I|[I|[]]]]]]]; injection I as <- <-; eexists; eexists; (split; [eassumption|split; [eassumption|]]); cbn [In]; tauto.
Qed.
Lemma lift_face c d e : face_of [c; d; e] t2 -> exists c' d' e', pp c = ax c' /\ pp d = ax d' /\ pp e = ax e' /\ In (c', d', e') (faces4 c2).
Proof.
  assert (Lt2 : length t2 = 4%nat) by (rewrite <- (map_length pp), E2, map_length; exact L2).
  intros [Ef _]. destruct t2 as [|u0 [|u1 [|u2 [|u3 [|]]]]]; try discriminate Lt2. destruct c2 as [|v0 [|v1 [|v2 [|v3 [|]]]]]; try discriminate L2.
  apply subseq3 in Ef; [|reflexivity]. cbn [map] in E2. injection E2 as F0 F1 F2 F3. cbn [In] in Ef. cbn [faces4].
  destruct Ef as [I|[I|[I|[I|[]]]]]; injection I as <- <- <-; do 3 eexists; (split; [eassumption|split; [eassumption|split; [eassumption|]]]); cbn [In]; tauto.
Qed.
Lemma pair_inclined a b c d e : meets2 c1 c2 -> edge_of [a; b] t1 -> face_of [c; d; e] t2 -> incline a b c d e = 0 \/ 1/1000 <= Rabs (incline a b c d e).
Proof.
  intros M Es Ef. destruct (lift_edge a b Es) as (a' & b' & Pa & Pb & I1). destruct (lift_face c d e Ef) as (c' & d' & e' & Pc & Pd & Pe & I2).
  unfold incline. rewrite Pa, Pb, Pc, Pd, Pe, ax_triple. pose proof det_big. destruct (M a' b' c' d' e' I1 I2) as [Z|[B _]]; [left; rewrite Z; ring|right].
  rewrite Rabs_mult, Rabs_Ropp, (Rabs_right (TAU * (TAU * TAU) + 1)) by lra. nra.
Qed.
Lemma pair_clear2 : corners2 c1 c2 -> meets2 c1 c2 -> clear2_pair t1 t2.
Proof.
  intros C M. split.
  - intros v Iv Hn. rewrite E2 in *. apply ax_near in Hn as (ws & Lw & Sw & Pv & Pw). apply (ax_hull ws); try assumption.
    assert (Ic : exists v', In v' c1 /\ ax v' = pp v).
    { assert (I : In (pp v) (map ax c1)) by (rewrite <- E1; apply in_map; exact Iv). apply in_map_iff in I as (v' & E & I). eauto. }
    destruct Ic as (v' & Iv' & Ev). rewrite <- Ev in Pv. apply ax_inj in Pv. rewrite L2 in Lw. destruct ws as [|w0 [|w1 [|w2 [|w3 [|]]]]]; try discriminate Lw.
    cbn in Sw. inversion Pw as [|? ? P0 Pw1]; subst. inversion Pw1 as [|? ? P1 Pw2]; subst. inversion Pw2 as [|? ? P2 Pw3]; subst. inversion Pw3 as [|? ? P3 _]; subst.
    assert (w0 = 1 - w1 - w2 - w3) as -> by lra. destruct (C _ w1 w2 w3 Iv' eq_refl P0 P1 P2 P3) as (? & ? & ? & ?). repeat (apply Forall_cons; [assumption|]). constructor.
  - intros a b c d e p Es Ef T N1 N2.
    destruct (lift_edge a b Es) as (a' & b' & Pa & Pb & I1). destruct (lift_face c d e Ef) as (c' & d' & e' & Pc & Pd & Pe & I2). unfold incline in T.
    rewrite Pa, Pb, Pc, Pd, Pe, ax_triple in T. cbn [map] in N1, N2. rewrite Pa, Pb in N1. rewrite Pc, Pd, Pe in N2.
    change [ax a'; ax b'] with (map ax [a'; b']) in N1. change [ax c'; ax d'; ax e'] with (map ax [c'; d'; e']) in N2.
    apply ax_near in N1 as (ws & Lw & Sw & Pp & Pw). apply ax_near in N2 as (us & Lu & Su & Pq & Pu).
    destruct ws as [|w0 [|w1 [|]]]; try discriminate Lw. destruct us as [|u0 [|u1 [|u2 [|]]]]; try discriminate Lu. cbn in Sw, Su.
    inversion Pw as [|? ? P0 Pw1]; subst. inversion Pw1 as [|? ? P1 _]; subst. inversion Pu as [|? ? Q0 Pu1]; subst. inversion Pu1 as [|? ? Q1 Pu2]; subst. inversion Pu2 as [|? ? Q2 _]; subst.
    assert (w0 = 1 - w1) as -> by lra. assert (u0 = 1 - u1 - u2) as -> by lra. apply ax_inj in Pq.
    destruct (M a' b' c' d' e' I1 I2) as [Z|[_ H]]; [exfalso; apply T; rewrite Z; ring|].
    destruct (H w1 u1 u2 Pq P1 ltac:(lra) Q0 Q1 Q2) as (A1 & A2 & A3 & A4). cbn [map]. rewrite Pa, Pb, Pc, Pd, Pe. split.
    + apply (ax_hull [1 - w1; w1] [a'; b']); [reflexivity|cbn; lra|reflexivity|repeat (apply Forall_cons; [lra|]); constructor].
    + rewrite Pq. apply (ax_hull [1 - u1 - u2; u1; u2] [c'; d'; e']); [reflexivity|cbn; lra|reflexivity|repeat (apply Forall_cons; [lra|]); constructor].
Qed.
End Pair2.
Lemma c2_PM : corners2 cP cM. Proof. corners. Qed.
Lemma c2_MP : corners2 cM cP. Proof. corners. Qed.
Lemma m2_PM : meets2 cP cM. Proof. meets. Qed.
Lemma m2_MP : meets2 cM cP. Proof. meets. Qed.

Ltac coefs1 := split; [reflexivity|]; unfold at3; repeat (apply Forall_cons; [cbn; repeat split; try lia; unfold Rabs; repeat destruct (Rcase_abs _); lra|]); constructor.
Lemma PM_tame : tame 1 5 (tetP ++ tetM).
Proof.
  split; [lra|]. split; [lra|]. split; [lra|]. split.
  - unfold tetP, tetM. cbn [app]. repeat (apply Forall_cons; [coefs1|]). constructor.
  - rewrite map_app, eP, eM. intros p q Ip Iq. unfold cP, cM in Ip, Iq. cbn [map app In] in Ip, Iq. pose proof TAU_bounds.
    repeat (destruct Ip as [<-|Ip]; [repeat (destruct Iq as [<-|Iq]; [unfold apart_le, ax; cbn; split; [|split]; apply Rabs_le; lra|]); destruct Iq|]); destruct Ip.
Qed.
Lemma PM_plump t c : map pp t = map ax c -> (c = cP \/ c = cM) -> plump 1 5 t.
Proof.
  intros E H. unfold plump. assert (V : 1/10 <= pvol t).
  { destruct H as [-> | ->]; unfold cP, cM in E; rewrite (pvol_ax _ _ _ _ _ E); pose proof det_big;
      match goal with |- _ <= _ * (Rabs ?x / 6) => assert (Ex : Rabs x = 1) by (cbn; unfold Rabs; destruct (Rcase_abs _); lra); rewrite Ex; lra end. }
  lra.
Qed.
(** Two tetrahedra that partly overlap, neither containing the other: the hypotheses of C93,
    C94 and C95 hold, the centroid of the first is inside it and lies in both, an edge of the second meets a
    face of the first, and the class is 3. *)
Example E_C95_ex : tets [tetP] /\ tets [tetM] /\ fit_pair 1 5 tetP tetM /\ steep tetP tetM /\ steep tetM tetP /\ clear2_pair tetP tetM /\ clear2_pair tetM tetP /\
  tame 1 5 (at3 4 1 1 1 :: tetP) /\ hull (map pp tetP) (pp (at3 4 1 1 1)) /\ hull (map pp tetM) (pp (at3 4 1 1 1)) /\
  bary [-2; 1; 1; 1] (map pp tetP) (pp (at3 1 1 1 1)) /\
  edge_of [at3 4 1 1 1; at3 4 (-3) 1 1] tetM /\ face_of [at3 1 0 0 0; at3 1 0 1 0; at3 1 0 0 1] tetP /\
  Rabs (incline (at3 4 1 1 1) (at3 4 (-3) 1 1) (at3 1 0 0 0) (at3 1 0 1 0) (at3 1 0 0 1)) >= 1/1000 /\
  check_intersection_segment_surface_numerical_6d_tau Bnum [at3 4 1 1 1; at3 4 (-3) 1 1] [at3 1 0 0 0; at3 1 0 1 0; at3 1 0 0 1] = Ok true /\
  check_intersection_two_tetrahedron_4 Bnum tetP tetM = Ok 3%Z.
Proof.
  assert (S1 : forall s f, edge_of s tetP -> face_of f tetM -> sharp 1 5 s f).
  { intros s f Es Ef a b c d e -> ->. destruct (pair_inclined _ _ _ _ eP eM eq_refl eq_refl a b c d e m2_PM Es Ef) as [Z|B]; [left; exact Z|right; lra]. }
  assert (S2 : forall s f, edge_of s tetM -> face_of f tetP -> sharp 1 5 s f).
  { intros s f Es Ef a b c d e -> ->. destruct (pair_inclined _ _ _ _ eM eP eq_refl eq_refl a b c d e m2_MP Es Ef) as [Z|B]; [left; exact Z|right; lra]. }
  split; [gd|]. split; [gd|]. split; [split; [exact PM_tame|split; [exact (PM_plump _ _ eP (or_introl eq_refl))|split; [exact (PM_plump _ _ eM (or_intror eq_refl))|split; assumption]]]|].
  split. { intros a b c d e Es Ef. destruct (pair_inclined _ _ _ _ eP eM eq_refl eq_refl a b c d e m2_PM Es Ef) as [Z|B]; [left; exact Z|right; lra]. }
  split. { intros a b c d e Es Ef. destruct (pair_inclined _ _ _ _ eM eP eq_refl eq_refl a b c d e m2_MP Es Ef) as [Z|B]; [left; exact Z|right; lra]. }
  split; [exact (pair_clear2 _ _ _ _ eP eM eq_refl eq_refl c2_PM m2_PM)|]. split; [exact (pair_clear2 _ _ _ _ eM eP eq_refl eq_refl c2_MP m2_MP)|].
  split. { apply (tame_incl _ _ _ _ PM_tame). intros v [<-|I]; apply in_app_iff; [right; left; reflexivity|left; exact I]. }
  split. { rewrite eP, pp_at3 by lia. exists [1/4; 1/4; 1/4; 1/4]. split; [|repeat (apply Forall_cons; [lra|]); constructor]. split; [reflexivity|]. split; [cbn; lra|]. rewrite ax_comb. f_equal. cbn. unfold o3. eqs. }
  split; [apply hull_mem; left; reflexivity|].
  split. { rewrite eP, pp_at3 by lia. split; [reflexivity|]. split; [cbn; lra|]. rewrite ax_comb. f_equal. cbn. unfold o3. eqs. }
  split; [split; [unfold tetM; subs|reflexivity]|]. split; [split; [unfold tetP; subs|reflexivity]|].
  split. { unfold incline. rewrite !pp_at3 by lia. rewrite ax_triple, Rabs_mult, Rabs_Ropp. pose proof det_big. rewrite (Rabs_right (TAU * (TAU * TAU) + 1)) by lra.
    match goal with |- _ * Rabs ?x >= _ => assert (Ex : Rabs x = 1) by (cbn; unfold Rabs; destruct (Rcase_abs _); lra); rewrite Ex; lra end. }
  split; match goal with |- _ = ?r => vm_cast_no_check (eq_refl r) end.
Qed.

(** The textbook np.dot and np.linalg.det meet the bounds asked of la. *)
Example E_C95_linalg : linalg_ok textbook.
Proof. exact Proofs.LinAlgLemmas.textbook_ok. Qed.
