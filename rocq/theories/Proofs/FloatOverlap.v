(** From the tests in binary64 to pairs of tetrahedra. *)
From Coq Require Import Reals List ZArith Bool Lia Lra Classical.
From Verif Require Import Base.Res Model.Tau Model.Arr Model.Num Model.IcoNumeric Model.IcoMath1 Model.IcoIntersect
  Spec.LinAlg Spec.Value Spec.RVec Spec.Shape Spec.IcoSpec Spec.Sets Spec.Space Spec.Tetra Spec.Region Spec.Overlap Spec.Float
  Proofs.ResLemmas Proofs.RVecLemmas Proofs.Irrational Proofs.NumLemmas Proofs.IntersectLemmas Proofs.ObjLemmas Proofs.DedupLemmas Proofs.P_Numeric Proofs.P_Intersect Proofs.Polytope Proofs.OverlapLemmas Proofs.FloatTests.
Import ListNotations.
Local Open Scope R_scope.
Notation insideB := (fun v t => inside_outside_tetrahedron_tau Bmath v t = Ok true).
Notation meetB := (fun s f v => intersection_segment_surface Bmath s f = Ok (Some v)).
Notation h2 := (2/1000000).
Local Notation Bnum := Bmath.

Section Lib.
Context {la : linalg} {LA : linalg_ok la}.


Lemma tame_incl A D vs ws : tame A D vs -> incl ws vs -> tame A D ws.
Proof.
  intros (HA & HD & HM & C & Sp) I. split; [exact HA|]. split; [exact HD|]. split; [exact HM|]. split.
  - rewrite Forall_forall in *. auto.
  - intros p q Ip Iq. apply in_map_iff in Ip as (v & <- & Iv). apply in_map_iff in Iq as (w & <- & Iw). apply Sp; apply in_map; auto.
Qed.
Lemma fit_sym A D t1 t2 : fit_pair A D t1 t2 -> fit_pair A D t2 t1.
Proof.
  intros (T & P1 & P2 & S1 & S2). split; [|auto]. apply (tame_incl A D (t1 ++ t2)); [exact T|]. intros v I. apply in_app_iff. apply in_app_iff in I. tauto.
Qed.
Lemma subseq_incl {X} (s t : list X) : subseq s t -> incl s t.
Proof. induction 1 as [l|x s l H IH|x s l H IH]; intros y I; [destruct I|destruct I as [->|I]; [left; reflexivity|right; auto]|right; auto]. Qed.
Lemma fit_face A D t1 t2 a b c d e : fit_pair A D t1 t2 -> edge_of [a; b] t1 -> face_of [c; d; e] t2 -> tame A D [a; b; c; d; e] /\ sharp A D [a; b] [c; d; e].
Proof.
  intros (T & _ & _ & S1 & _) E F. split; [|apply S1; assumption]. apply (tame_incl A D (t1 ++ t2) _ T).
  destruct E as [E _], F as [F _]. apply subseq_incl in E, F. intros v I. apply in_app_iff.
  change [a; b; c; d; e] with ([a; b] ++ [c; d; e]) in I. apply in_app_iff in I as [I|I]; auto.
Qed.

Lemma inside_near_B A D t1 t2 v : fit_pair A D t1 t2 -> length t2 = 4%nat -> In v t1 -> inside_outside_tetrahedron_tau Bnum v t2 = Ok true -> near small6 (map pp t2) (pp v).
Proof.
  intros F L I H. assert (T : tame A D (v :: t2)).
  { apply (tame_incl A D (t1 ++ t2)); [apply F|]. intros w [<-|J]; apply in_app_iff; auto. }
  destruct F as (_ & _ & Pl & _). destruct (inside_B A D v t2 T L Pl) as [_ Far].
  destruct t2 as [|a [|b [|c [|d [|]]]]]; try discriminate L. cbn [map] in *.
  assert (NF : ~ flat4 (pp a) (pp b) (pp c) (pp d)).
  { apply pvol_flat. unfold plump in Pl. destruct T as (HA & HD & _). intros Z. rewrite Z in Pl. assert (0 < (A + D) * D ^ 2) by (apply Rmult_lt_0_compat; [lra|apply pow_lt; lra]). lra. }
  destruct (bary_exists _ _ _ _ (pp v) NF) as (ws & B). exists ws. split; [exact B|]. apply Forall_forall. intros w Iw.
  destruct (Rle_dec w (- small6)) as [C|C]; [|lra]. rewrite (Far ws w B Iw C) in H. discriminate.
Qed.
Lemma plane_solution (a b c d e : R3) : triple3 (sub3 b a) (sub3 d c) (sub3 e c) <> 0 ->
  exists u v t, add3 a (scale3 t (sub3 b a)) = add3 c (add3 (scale3 u (sub3 d c)) (scale3 v (sub3 e c))).
Proof.
  intros H. rewrite triple_bunbo in H. set (D := dot3 (cross3 (sub3 b a) (sub3 e c)) (sub3 d c)) in *. assert (HD : D <> 0) by lra.
  exists (dot3 (cross3 (sub3 b a) (sub3 e c)) (sub3 a c) / D), (dot3 (cross3 (sub3 a c) (sub3 d c)) (sub3 b a) / D), (dot3 (cross3 (sub3 a c) (sub3 d c)) (sub3 e c) / D).
  clear H. subst D. destruct a as [[a0 a1] a2], b as [[b0 b1] b2], c as [[c0 c1] c2], d as [[d0 d1] d2], e as [[e0 e1] e2]. cbn in *. apply f_equal2; [apply f_equal2|]; field; exact HD.
Qed.
Lemma on_line (a b : R3) t h : - h <= t <= 1 + h -> near h [a; b] (add3 a (scale3 t (sub3 b a))).
Proof.
  intros Ht. exists [1 - t; t]. split; [|repeat (apply Forall_cons; [lra|]); constructor]. split; [reflexivity|]. split; [cbn [Rsum]; ring|].
  destruct a as [[? ?] ?], b as [[? ?] ?]. unfold o3. cbn. apply f_equal2; [apply f_equal2|]; ring.
Qed.
Lemma in_plane (c d e : R3) u v h : - h <= u -> - h <= v -> u + v <= 1 + h -> near h [c; d; e] (add3 c (add3 (scale3 u (sub3 d c)) (scale3 v (sub3 e c)))).
Proof.
  intros Hu Hv Huv. exists [1 - u - v; u; v]. split; [|repeat (apply Forall_cons; [lra|]); constructor]. split; [reflexivity|]. split; [cbn [Rsum]; ring|].
  destruct c as [[? ?] ?], d as [[? ?] ?], e as [[? ?] ?]. unfold o3. cbn. apply f_equal2; [apply f_equal2|]; ring.
Qed.

(** What a returned crossing point is. *)
Lemma meet_near_B A D t1 t2 s f v : fit_pair A D t1 t2 -> goods 6 t1 -> goods 6 t2 -> edge_of s t1 -> face_of f t2 -> intersection_segment_surface Bnum s f = Ok (Some v) ->
  near h2 (map pp s) (pp v) /\ near h2 (map pp f) (pp v) /\ forall a b c d e, s = [a; b] -> f = [c; d; e] -> incline a b c d e <> 0.
Proof.
  intros F G1 G2 E Fa H. assert (Ls := proj2 E). assert (Lf := proj2 Fa).
  destruct s as [|a [|b [|]]]; try discriminate Ls. destruct f as [|c [|d [|e [|]]]]; try discriminate Lf.
  assert (G5 : goods 6 [a; b; c; d; e]) by (apply (Forall_app (good 6) [a; b] [c; d; e]); split; [exact (subseq_goods _ _ (proj1 E) G1)|exact (subseq_goods _ _ (proj1 Fa) G2)]).
  destruct (fit_face A D t1 t2 a b c d e F E Fa) as [T Sh]. destruct (crossing_B A D a b c d e T) as [Par Cr].
  assert (Ck : check_intersection_segment_surface_numerical_6d_tau Bnum [a; b] [c; d; e] = Ok true).
  { unfold intersection_segment_surface in H. destruct (check_intersection_segment_surface_numerical_6d_tau Bnum [a; b] [c; d; e]) as [[|]|]; [reflexivity|discriminate|discriminate]. }
  destruct (Sh a b c d e eq_refl eq_refl) as [Z|Big]; [rewrite (Par Z) in Ck; discriminate|].
  assert (Nz : incline a b c d e <> 0).
  { intros Z. rewrite Z, Rabs_R0 in Big. destruct T as (HA & HD & _). assert (0 < (A + D) * D ^ 2) by (apply Rmult_lt_0_compat; [lra|apply pow_lt; lra]). lra. }
  destruct (plane_solution _ _ _ _ _ Nz) as (u & w & t & Sol). destruct (Cr Big u w t Sol) as [R _]. destruct (R Ck) as (U & W & UW & Ht).
  destruct (L_C32_point Bnum a b c d e u w t G5 Ck Nz Sol) as (p & Ep & _ & _ & Pp). rewrite Ep in H. injection H as ->. cbn [map]. split; [|split].
  - rewrite Pp. apply on_line. lra.
  - rewrite Pp, Sol. apply in_plane; lra.
  - intros a' b' c' d' e' Q1 Q2. injection Q1 as <- <-. injection Q2 as <- <- <-. exact Nz.
Qed.
Lemma admissible_near_B A D t1 t2 v : fit_pair A D t1 t2 -> length t1 = 4%nat -> goods 6 t1 -> length t2 = 4%nat -> goods 6 t2 ->
  admissible insideB meetB t1 t2 v -> near h2 (map pp t1) (pp v) /\ near h2 (map pp t2) (pp v).
Proof.
  intros F L1 G1 L2 G2 [[I H]|[[I H]|[(s & f & Es & Ef & H)|(s & f & Es & Ef & H)]]].
  - split; [apply (near_weaken 0); [lra|]; apply mem_near, in_map, I|]. apply (near_weaken small6); [lra|]. exact (inside_near_B A D t1 t2 v F L2 I H).
  - split; [|apply (near_weaken 0); [lra|]; apply mem_near, in_map, I]. apply (near_weaken small6); [lra|]. exact (inside_near_B A D t2 t1 v (fit_sym _ _ _ _ F) L1 I H).
  - destruct (meet_near_B A D t1 t2 s f v F G1 G2 Es Ef H) as (N1 & N2 & _). destruct Es as [Ss _], Ef as [Sf _].
    split; [apply (near_subseq _ (map pp s))|apply (near_subseq _ (map pp f))]; try lra; try assumption; apply subseq_map; assumption.
  - destruct (meet_near_B A D t2 t1 s f v (fit_sym _ _ _ _ F) G2 G1 Es Ef H) as (N1 & N2 & _). destruct Es as [Ss _], Ef as [Sf _].
    split; [apply (near_subseq _ (map pp f))|apply (near_subseq _ (map pp s))]; try lra; try assumption; apply subseq_map; assumption.
Qed.
Lemma hull_subseq s t p : subseq s t -> hull s p -> hull t p.
Proof. intros S H. apply (hull_trans s _ _ H). intros q I. apply hull_mem. exact (subseq_incl _ _ S q I). Qed.
Lemma admissible_in_B A D t1 t2 v : fit_pair A D t1 t2 -> clear2_pair t1 t2 -> clear2_pair t2 t1 -> length t1 = 4%nat -> goods 6 t1 -> length t2 = 4%nat -> goods 6 t2 ->
  admissible insideB meetB t1 t2 v -> hull (map pp t1) (pp v) /\ hull (map pp t2) (pp v).
Proof.
  intros F C1 C2 L1 G1 L2 G2 [[I H]|[[I H]|[(s & f & Es & Ef & H)|(s & f & Es & Ef & H)]]].
  - split; [apply hull_mem, in_map, I|]. apply (proj1 C1 v I). apply (near_weaken small6); [lra|]. exact (inside_near_B A D t1 t2 v F L2 I H).
  - split; [|apply hull_mem, in_map, I]. apply (proj1 C2 v I). apply (near_weaken small6); [lra|]. exact (inside_near_B A D t2 t1 v (fit_sym _ _ _ _ F) L1 I H).
  - destruct (meet_near_B A D t1 t2 s f v F G1 G2 Es Ef H) as (N1 & N2 & Nz). assert (Ls := proj2 Es). assert (Lf := proj2 Ef).
    destruct s as [|a [|b [|]]]; try discriminate Ls. destruct f as [|c [|d [|e [|]]]]; try discriminate Lf.
    destruct (proj2 C1 a b c d e (pp v) Es Ef (Nz a b c d e eq_refl eq_refl) N1 N2) as [H1 H2]. destruct Es as [Ss _], Ef as [Sf _].
    split; [apply (hull_subseq (map pp [a; b]))|apply (hull_subseq (map pp [c; d; e]))]; try assumption; apply subseq_map; assumption.
  - destruct (meet_near_B A D t2 t1 s f v (fit_sym _ _ _ _ F) G2 G1 Es Ef H) as (N1 & N2 & Nz). assert (Ls := proj2 Es). assert (Lf := proj2 Ef).
    destruct s as [|a [|b [|]]]; try discriminate Ls. destruct f as [|c [|d [|e [|]]]]; try discriminate Lf.
    destruct (proj2 C2 a b c d e (pp v) Es Ef (Nz a b c d e eq_refl eq_refl) N1 N2) as [H1 H2]. destruct Es as [Ss _], Ef as [Sf _].
    split; [apply (hull_subseq (map pp [c; d; e]))|apply (hull_subseq (map pp [a; b]))]; try assumption; apply subseq_map; assumption.
Qed.

(** Corners of the common part are found. *)
Lemma inside_hull_B A D t1 t2 v : fit_pair A D t1 t2 -> length t2 = 4%nat -> In v t1 -> hull (map pp t2) (pp v) -> inside_outside_tetrahedron_tau Bnum v t2 = Ok true.
Proof.
  intros F L I H. assert (T : tame A D (v :: t2)).
  { apply (tame_incl A D (t1 ++ t2)); [apply F|]. intros w [<-|J]; apply in_app_iff; auto. }
  destruct F as (_ & _ & Pl & _). apply (inside_B A D v t2 T L Pl). exact H.
Qed.
Lemma crossing_found_B A D t1 t2 p : fit_pair A D t1 t2 -> steep t1 t2 -> length t1 = 4%nat -> goods 6 t1 -> length t2 = 4%nat -> goods 6 t2 -> crossing (map pp t1) (map pp t2) p ->
  exists s f v, edge_of s t1 /\ face_of f t2 /\ check_intersection_segment_surface_numerical_6d_tau Bnum s f = Ok true /\ intersection_segment_surface Bnum s f = Ok (Some v) /\ pp v = p.
Proof.
  intros F St L1 G1 L2 G2 (s0 & f0 & Ss & Sf & T & Hs & Hf).
  apply subseq_map_inv in Ss as (s & Ss & <-). apply subseq_map_inv in Sf as (f & Sf & <-).
  destruct T as (a0 & b0 & c0 & d0 & e0 & Es & Ef & T).
  assert (Ls : length s = 2%nat) by (rewrite <- (map_length pp), Es; reflexivity).
  assert (Lf : length f = 3%nat) by (rewrite <- (map_length pp), Ef; reflexivity).
  assert (Gs : goods 6 s) by (eapply subseq_goods; eassumption). assert (Gf : goods 6 f) by (eapply subseq_goods; eassumption).
  assert (Edge := conj Ss Ls : edge_of s t1). assert (Face := conj Sf Lf : face_of f t2).
  destruct s as [|a [|b [|]]]; try discriminate Ls. destruct f as [|c [|d [|e [|]]]]; try discriminate Lf.
  cbn [map] in *. injection Es as <- <-. injection Ef as <- <- <-. change (incline a b c d e <> 0) in T.
  assert (G5 : goods 6 [a; b; c; d; e]) by (apply (Forall_app (good 6) [a; b] [c; d; e]); split; assumption).
  destruct (fit_face A D t1 t2 a b c d e F Edge Face) as [Tm Sh]. destruct (crossing_B A D a b c d e Tm) as [_ Cr].
  destruct (Sh a b c d e eq_refl eq_refl) as [Z|Big]; [contradiction|]. destruct (St a b c d e Edge Face) as [Z|Steep]; [contradiction|].
  destruct Hs as (ws & (Lw & Sw & Ew) & Pw). destruct Hf as (us & (Lu & Su & Eu) & Pu).
  destruct ws as [|w0 [|w1 [|]]]; try discriminate Lw. destruct us as [|u0 [|u1 [|u2 [|]]]]; try discriminate Lu.
  cbn [Rsum] in Sw, Su. assert (w0 = 1 - w1) by lra. assert (u0 = 1 - u1 - u2) by lra. subst w0 u0.
  rewrite Forall_forall in Pw, Pu. assert (W1 := Pw w1 ltac:(cbn; auto)). assert (W0 := Pw (1 - w1) ltac:(cbn; auto)).
  assert (U1 := Pu u1 ltac:(cbn; auto)). assert (U2 := Pu u2 ltac:(cbn; auto)). assert (U0 := Pu (1 - u1 - u2) ltac:(cbn; auto)).
  assert (P1 : p = add3 (pp a) (scale3 w1 (sub3 (pp b) (pp a)))).
  { rewrite Ew. generalize (pp a) (pp b). intros [[? ?] ?] [[? ?] ?]. unfold o3. cbn. apply f_equal2; [apply f_equal2|]; ring. }
  assert (P2 : p = add3 (pp c) (add3 (scale3 u1 (sub3 (pp d) (pp c))) (scale3 u2 (sub3 (pp e) (pp c))))).
  { rewrite Eu. generalize (pp c) (pp d) (pp e). intros [[? ?] ?] [[? ?] ?] [[? ?] ?]. unfold o3. cbn. apply f_equal2; [apply f_equal2|]; ring. }
  assert (Sol : add3 (pp a) (scale3 w1 (sub3 (pp b) (pp a))) = add3 (pp c) (add3 (scale3 u1 (sub3 (pp d) (pp c))) (scale3 u2 (sub3 (pp e) (pp c))))) by congruence.
  destruct (Cr Big u1 u2 w1 Sol) as [_ R]. assert (Ck := R Steep U1 U2 ltac:(lra) ltac:(lra)).
  destruct (L_C32_point Bnum a b c d e u1 u2 w1 G5 Ck T Sol) as (v & Ev & _ & _ & Pv).
  exists [a; b], [c; d; e], v. split; [exact Edge|]. split; [exact Face|]. split; [exact Ck|]. split; [exact Ev|]. congruence.
Qed.
Lemma corner_admissible_B A D t1 t2 p : fit_pair A D t1 t2 -> steep t1 t2 -> steep t2 t1 -> length t1 = 4%nat -> goods 6 t1 -> length t2 = 4%nat -> goods 6 t2 ->
  corner (map pp t1) (map pp t2) p -> exists v, admissible insideB meetB t1 t2 v /\ pp v = p.
Proof.
  intros F D1 D2 L1 G1 L2 G2 [[I H]|[[I H]|[C|C]]].
  - apply in_map_iff in I as (v & <- & I). exists v. split; [|reflexivity]. left. split; [exact I|]. exact (inside_hull_B A D t1 t2 v F L2 I H).
  - apply in_map_iff in I as (v & <- & I). exists v. split; [|reflexivity]. right; left. split; [exact I|]. exact (inside_hull_B A D t2 t1 v (fit_sym _ _ _ _ F) L1 I H).
  - destruct (crossing_found_B A D t1 t2 p F D1 L1 G1 L2 G2 C) as (s & f & v & Es & Ef & _ & M & E). exists v. split; [|exact E]. right; right; left. eauto.
  - destruct (crossing_found_B A D t2 t1 p (fit_sym _ _ _ _ F) D2 L2 G2 L1 G1 C) as (s & f & v & Es & Ef & _ & M & E). exists v. split; [|exact E]. right; right; right. eauto.
Qed.
Lemma plump_vol A D t1 t2 : fit_pair A D t1 t2 -> pvol t1 <> 0 /\ pvol t2 <> 0.
Proof.
  intros ((HA & HD & _) & P1 & P2 & _). unfold plump in *. assert (0 < (A + D) * D ^ 2) by (apply Rmult_lt_0_compat; [lra|apply pow_lt; lra]). split; intros Z; rewrite Z in *; lra.
Qed.
Lemma common_span_B A D t1 t2 p : fit_pair A D t1 t2 -> steep t1 t2 -> steep t2 t1 -> length t1 = 4%nat -> goods 6 t1 -> length t2 = 4%nat -> goods 6 t2 ->
  hull (map pp t1) p -> hull (map pp t2) p ->
  forall ps, (forall v, admissible insideB meetB t1 t2 v -> In (ppoint v) (map ppoint ps)) -> hull (map pp ps) p.
Proof.
  intros F D1 D2 L1 G1 L2 G2 H1 H2 ps Ad. destruct (plump_vol A D t1 t2 F) as [V1 V2].
  destruct t1 as [|a [|b [|c [|d [|]]]]]; try discriminate L1. destruct t2 as [|a' [|b' [|c' [|d' [|]]]]]; try discriminate L2.
  destruct (overlap_span (pp a) (pp b) (pp c) (pp d) (pp a') (pp b') (pp c') (pp d') p) as (qs & Fq & Hq);
    [apply pvol_flat; exact V1|apply pvol_flat; exact V2|exact H1|exact H2|].
  apply (hull_trans qs _ _ Hq). intros q Iq. rewrite Forall_forall in Fq. specialize (Fq q Iq).
  destruct (corner_admissible_B A D [a;b;c;d] [a';b';c';d'] q F D1 D2 L1 G1 L2 G2 Fq) as (v & Av & <-).
  specialize (Ad v Av). apply in_map_iff in Ad as (u & Eu & Iu). apply hull_mem. rewrite <- (pp_ppoint u v Eu). apply in_map. exact Iu.
Qed.
Lemma class_not_0_B A D t1 t2 p : fit_pair A D t1 t2 -> steep t1 t2 -> steep t2 t1 -> length t1 = 4%nat -> goods 6 t1 -> length t2 = 4%nat -> goods 6 t2 ->
  hull (map pp t1) p -> hull (map pp t2) p -> exists k, check_intersection_two_tetrahedron_4 Bnum t1 t2 = Ok k /\ (k = 1 \/ k = 2 \/ k = 3)%Z.
Proof.
  intros F D1 D2 L1 G1 L2 G2 H1 H2. destruct (plump_vol A D t1 t2 F) as [V1 V2].
  destruct (L_C33_classes Bnum t1 t2 L1 G1 L2 G2) as (k & Ek & K1 & K2 & K3 & K0). exists k. split; [exact Ek|].
  assert (X : (forall v, In v (map pp t1) -> hull (map pp t2) v) \/ (forall v, In v (map pp t2) -> hull (map pp t1) v) \/
    (exists q, crossing (map pp t1) (map pp t2) q) \/ (exists q, crossing (map pp t2) (map pp t1) q)).
  { clear K1 K2 K3 K0 Ek D1 D2 F. destruct t1 as [|a [|b [|c [|d [|]]]]]; try discriminate L1. destruct t2 as [|a' [|b' [|c' [|d' [|]]]]]; try discriminate L2.
    apply (overlap_cases (pp a) (pp b) (pp c) (pp d) (pp a') (pp b') (pp c') (pp d') p); [apply pvol_flat; exact V1|apply pvol_flat; exact V2|exact H1|exact H2]. }
  destruct (classic (forall v, In v t1 -> inside_outside_tetrahedron_tau Bnum v t2 = Ok true)) as [N1|N1]; [left; apply K1; exact N1|].
  destruct (classic (forall v, In v t2 -> inside_outside_tetrahedron_tau Bnum v t1 = Ok true)) as [N2|N2]; [right; left; apply K2; split; assumption|].
  right; right. apply K3. split; [exact N1|]. split; [exact N2|].
  destruct X as [Ax|[Ax|[(q & C)|(q & C)]]].
  - exfalso. apply N1. intros v I. exact (inside_hull_B A D t1 t2 v F L2 I (Ax _ (in_map pp _ _ I))).
  - exfalso. apply N2. intros v I. exact (inside_hull_B A D t2 t1 v (fit_sym _ _ _ _ F) L1 I (Ax _ (in_map pp _ _ I))).
  - destruct (crossing_found_B A D t1 t2 q F D1 L1 G1 L2 G2 C) as (s & f & v & Es & Ef & Ck & _). left. exists s, f. auto.
  - destruct (crossing_found_B A D t2 t1 q (fit_sym _ _ _ _ F) D2 L2 G2 L1 G1 C) as (s & f & v & Es & Ef & Ck & _). right. exists s, f. auto.
Qed.
End Lib.
