(** From the geometry of tetrahedra to the intersection of objects. *)
From Coq Require Import Reals List ZArith Lia Lra Bool Classical.
From Verif Require Import Base.Res Model.Tau Model.Arr Model.Num Model.IcoNumeric Model.IcoMath1 Model.IcoVolume Model.IcoIntersect
  Spec.Value Spec.RVec Spec.Shape Spec.Geometry Spec.IcoSpec Spec.Sets Spec.Space Spec.Tetra Spec.Region Spec.Overlap
  Proofs.ResLemmas Proofs.ScalarLemmas Proofs.ValueLemmas Proofs.VectorLemmas Proofs.VectorLemmas2 Proofs.RVecLemmas Proofs.MeanLemmas Proofs.IcoVolumeLemmas
  Proofs.DedupLemmas Proofs.Irrational Proofs.NumLemmas Proofs.CoplanarLemmas Proofs.IntersectLemmas Proofs.ObjLemmas Proofs.P_Numeric Proofs.P_Intersect Proofs.IcoProj Proofs.Polytope.
Import ListNotations.
Local Open Scope R_scope.

Notation small6 := (1/1000000).
Notation insideR := (fun v t => inside_outside_tetrahedron_tau Rnum v t = Ok true).
Notation meetR := (fun s f v => intersection_segment_surface Rnum s f = Ok (Some v)).

Lemma pvol_flat a b c d : pvol [a; b; c; d] <> 0 <-> ~ flat4 (pp a) (pp b) (pp c) (pp d).
Proof.
  assert (K : forall p0 p1 p2 p3, length p0 = 3%nat -> length p1 = 3%nat -> length p2 = 3%nat -> length p3 = 3%nat ->
     tetvol [p0;p1;p2;p3] = Rabs (triple3 (sub3 (tri3 p1) (tri3 p0)) (sub3 (tri3 p2) (tri3 p0)) (sub3 (tri3 p3) (tri3 p0))) / 6).
  { intros p0 p1 p2 p3 K0 K1 K2 K3. d3 p0 K0. d3 p1 K1. d3 p2 K2. d3 p3 K3. unfold tetvol, Spec.Geometry.det3. cbn. unfold dot; cbn. f_equal. f_equal. ring. }
  unfold pvol, flat4. cbn [map]. unfold tetvol in K. cbv beta iota delta [tetvol]. rewrite K by reflexivity. rewrite <- !pp_tri3.
  set (x := triple3 _ _ _). split; intros H E; apply H.
  - rewrite E, Rabs_R0. field.
  - destruct (Req_dec x 0) as [|N]; [assumption|]. apply Rabs_no_R0 in N. lra.
Qed.

Lemma subseq_map_inv {A B} (f : A -> B) s l : subseq s (map f l) -> exists s', subseq s' l /\ map f s' = s.
Proof.
  remember (map f l) as m eqn:E. intros H. revert l E. induction H as [m|x s m H IH|x s m H IH]; intros l E.
  - exists []. split; [constructor|reflexivity].
  - destruct l as [|y l]; [discriminate|]. injection E as -> E. destruct (IH l E) as (s' & S & <-). exists (y :: s'). split; [constructor; exact S|reflexivity].
  - destruct l as [|y l]; [discriminate|]. injection E as -> E. destruct (IH l E) as (s' & S & <-). exists s'. split; [constructor; exact S|reflexivity].
Qed.
Lemma subseq_map {A B} (f : A -> B) s l : subseq s l -> subseq (map f s) (map f l).
Proof. induction 1; cbn; constructor; assumption. Qed.

(** Enlarged hulls. *)
Lemma near_subseq h s t p : 0 <= h -> subseq s t -> near h s p -> near h t p.
Proof.
  intros Hh S (ws & (L & Sm & E) & P).
  assert (G : exists vs, length vs = length t /\ Rsum vs = Rsum ws /\ comb vs t = comb ws s /\ Forall (Rle (- h)) vs).
  { clear Sm E. revert ws L P. induction S as [l|x s l S IH|x s l S IH]; intros ws L P.
    - destruct ws; [|discriminate]. exists (map (fun _ => 0) l). rewrite map_length. split; [reflexivity|].
      induction l as [|y l IHl]; [cbn; repeat split; constructor|]. destruct IHl as (A & B & C). cbn [map]. rewrite Rsum_cons, A. split; [unfold Rsum; cbn; ring|].
      split; [rewrite comb_cons, B; p3 y; cbn; unfold o3; apply f_equal2; [apply f_equal2|]; ring|]. constructor; [lra|exact C].
    - destruct ws as [|w ws]; [discriminate|]. injection L as L. inversion P as [|? ? Pw P']; subst. destruct (IH ws L P') as (vs & A & B & C & D).
      exists (w :: vs). split; [cbn; rewrite A; reflexivity|]. rewrite !Rsum_cons, B, !comb_cons, C. split; [reflexivity|]. split; [reflexivity|]. constructor; assumption.
    - destruct (IH ws L P) as (vs & A & B & C & D). exists (0 :: vs). split; [cbn; rewrite A; reflexivity|]. rewrite Rsum_cons, B, comb_cons, C.
      split; [ring|]. split; [destruct (comb ws s) as [[? ?] ?]; p3 x; cbn; apply f_equal2; [apply f_equal2|]; ring|]. constructor; [lra|exact D]. }
  destruct G as (vs & A & B & C & D). exists vs. split; [|exact D]. split; [exact A|]. split; [congruence|congruence].
Qed.
Lemma near_weaken h k ps p : h <= k -> near h ps p -> near k ps p.
Proof. intros Hk (ws & B & P). exists ws. split; [exact B|]. eapply Forall_impl; [|exact P]. cbn. intros. lra. Qed.
Lemma near_hull h ps qs p : hull ps p -> (forall q, In q ps -> near h qs q) -> near h qs p.
Proof. intros H I. apply (convex_hull (near h qs) ps p (near_convex h qs)); [|exact H]. apply Forall_forall. exact I. Qed.
Lemma mem_near ps p : In p ps -> near 0 ps p.
Proof. intros I. apply hull_near0. apply hull_mem. exact I. Qed.

(** Accepted points are close. *)
Lemma inside_near v t : good 6 v -> length t = 4%nat -> goods 6 t -> inside_outside_tetrahedron_tau Rnum v t = Ok true -> near small6 (map pp t) (pp v).
Proof.
  intros Gv L G H. rewrite L_C29_tau in H by (try apply goods_l6; try apply good_l6; assumption).
  destruct t as [|a [|b [|c [|d [|]]]]]; try discriminate L. cbn [map] in *.
  assert (NF : ~ flat4 (pp a) (pp b) (pp c) (pp d)).
  { intros Fl. rewrite (L_C29_flat (pp v)) in H by exact Fl. discriminate. }
  destruct (bary_exists _ _ _ _ (pp v) NF) as (ws & B). exists ws. split; [exact B|]. apply Forall_forall. intros w Iw.
  destruct (Rle_dec w (- (1/2000000))) as [C|C]; [|lra]. rewrite (L_C29_far_rejected _ _ _ _ _ ws w B Iw C) in H. discriminate.
Qed.
Lemma meet_near s f v : goods 6 s -> goods 6 f -> length s = 2%nat -> length f = 3%nat -> intersection_segment_surface Rnum s f = Ok (Some v) ->
  near small6 (map pp s) (pp v) /\ near small6 (map pp f) (pp v).
Proof.
  intros Gs Gf Ls Lf H. destruct s as [|A [|B [|]]]; try discriminate Ls. destruct f as [|C [|D [|E [|]]]]; try discriminate Lf.
  assert (G5 : goods 6 [A; B; C; D; E]) by (apply (Forall_app (good 6) [A; B] [C; D; E]); split; assumption).
  destruct (L_C32_exact A B C D E G5) as (o & Eo & Ho). rewrite H in Eo. injection Eo as <-.
  destruct Ho as (_ & _ & t & x & y & _ & E1 & E2 & [T0 T1] & [U0 _] & V0 & UV). cbn [map]. split.
  - exists [1 - t; t]. split; [|repeat (apply Forall_cons; [lra|]); constructor]. split; [reflexivity|]. split; [unfold Rsum; cbn [fold_right]; ring|].
    rewrite E1. generalize (pp A) (pp B). intros a b. p3 a. p3 b. unfold o3. cbn. apply f_equal2; [apply f_equal2|]; ring.
  - exists [1 - x - y; x; y]. split; [|repeat (apply Forall_cons; [lra|]); constructor]. split; [reflexivity|]. split; [unfold Rsum; cbn [fold_right]; ring|].
    rewrite E2. generalize (pp C) (pp D) (pp E). intros c d e. p3 c. p3 d. p3 e. unfold o3. cbn. apply f_equal2; [apply f_equal2|]; ring.
Qed.
Lemma meet_transversal a b c d e v : goods 6 [a; b; c; d; e] -> intersection_segment_surface Rnum [a; b] [c; d; e] = Ok (Some v) ->
  triple3 (sub3 (pp b) (pp a)) (sub3 (pp d) (pp c)) (sub3 (pp e) (pp c)) <> 0.
Proof.
  intros G H. destruct (L_C32_exact a b c d e G) as (o & Eo & Ho). rewrite H in Eo. injection Eo as <-. destruct Ho as (Ck & _).
  inversion G as [|? ? Ga X1]; subst. inversion X1 as [|? ? Gb Gf]; subst.
  assert (Gs : goods 6 [a; b]) by (constructor; [exact Ga|constructor; [exact Gb|constructor]]).
  rewrite L_C31_tau in Ck by (apply goods_l6; first [exact Gf|exact Gs]).
  apply L_C31_iff in Ck as [T _]. intros Z. rewrite Z, Rabs_R0 in T. lra.
Qed.
Lemma admissible_near t1 t2 v : length t1 = 4%nat -> goods 6 t1 -> length t2 = 4%nat -> goods 6 t2 ->
  admissible insideR meetR t1 t2 v -> near small6 (map pp t1) (pp v) /\ near small6 (map pp t2) (pp v).
Proof.
  intros L1 G1 L2 G2 [[I H]|[[I H]|[(s & f & [Ss Ls] & [Sf Lf] & H)|(s & f & [Ss Ls] & [Sf Lf] & H)]]].
  - split; [apply (near_weaken 0); [lra|]; apply mem_near, in_map, I|]. apply inside_near; try assumption. first [exact (goods_in 6 _ _ G1 I)|exact (goods_in 6 _ _ G2 I)].
  - split; [|apply (near_weaken 0); [lra|]; apply mem_near, in_map, I]. apply inside_near; try assumption. first [exact (goods_in 6 _ _ G1 I)|exact (goods_in 6 _ _ G2 I)].
  - destruct (meet_near s f v) as [A B]; try assumption; try (first [exact (subseq_goods _ _ Ss G1)|exact (subseq_goods _ _ Ss G2)|exact (subseq_goods _ _ Sf G1)|exact (subseq_goods _ _ Sf G2)]).
    split; [apply (near_subseq _ (map pp s))|apply (near_subseq _ (map pp f))]; try lra; try assumption; apply subseq_map; assumption.
  - destruct (meet_near s f v) as [A B]; try assumption; try (first [exact (subseq_goods _ _ Ss G1)|exact (subseq_goods _ _ Ss G2)|exact (subseq_goods _ _ Sf G1)|exact (subseq_goods _ _ Sf G2)]).
    split; [apply (near_subseq _ (map pp f))|apply (near_subseq _ (map pp s))]; try lra; try assumption; apply subseq_map; assumption.
Qed.

(** Corners of the overlap are found exactly. *)
Lemma crossing_found t1 t2 p : length t1 = 4%nat -> goods 6 t1 -> length t2 = 4%nat -> goods 6 t2 ->
  (forall s f, edge_of s t1 -> face_of f t2 -> decided s f) -> crossing (map pp t1) (map pp t2) p ->
  exists s f v, edge_of s t1 /\ face_of f t2 /\ hull (map pp s) p /\ hull (map pp f) p /\
    (forall a b c d e, s = [a; b] -> f = [c; d; e] -> small6 <= Rabs (triple3 (sub3 (pp b) (pp a)) (sub3 (pp d) (pp c)) (sub3 (pp e) (pp c)))) /\
    intersection_segment_surface Rnum s f = Ok (Some v) /\ pp v = p.
Proof.
  intros L1 G1 L2 G2 D (s0 & f0 & Ss & Sf & T & Hs & Hf).
  apply subseq_map_inv in Ss as (s & Ss & <-). apply subseq_map_inv in Sf as (f & Sf & <-).
  destruct T as (a0 & b0 & c0 & d0 & e0 & Es & Ef & T).
  assert (Ls : length s = 2%nat) by (rewrite <- (map_length pp), Es; reflexivity).
  assert (Lf : length f = 3%nat) by (rewrite <- (map_length pp), Ef; reflexivity).
  assert (Gs : goods 6 s) by (eapply subseq_goods; eassumption). assert (Gf : goods 6 f) by (eapply subseq_goods; eassumption).
  assert (Hd := D s f (conj Ss Ls) (conj Sf Lf)).
  assert (Edge := conj Ss Ls : edge_of s t1). assert (Face := conj Sf Lf : face_of f t2).
  destruct s as [|A [|B [|]]]; try discriminate Ls. destruct f as [|C [|D' [|E [|]]]]; try discriminate Lf.
  cbn [map] in *. injection Es as <- <-. injection Ef as <- <- <-.
  specialize (Hd A B C D' E eq_refl eq_refl). cbv zeta in Hd. destruct Hd as [Z|Big]; [contradiction|].
  assert (G5 : goods 6 [A; B; C; D'; E]) by (apply (Forall_app (good 6) [A; B] [C; D'; E]); split; assumption).
  assert (Ck : check_intersection_segment_surface_numerical_6d_tau Rnum [A; B] [C; D'; E] = Ok true).
  { rewrite L_C31_tau by (apply goods_l6; assumption). apply (L_C31_never_missed _ _ _ _ _ p); assumption. }
  destruct (L_C32_exact A B C D' E G5) as (o & Eo & Ho). destruct o as [v|]; [|congruence].
  destruct Ho as (_ & _ & t & x & y & _ & E1 & E2 & _).
  exists [A; B], [C; D'; E], v. split; [exact Edge|]. split; [exact Face|]. split; [exact Hs|]. split; [exact Hf|]. split.
  { intros a b c d e Ea Eb. injection Ea as -> ->. injection Eb as -> -> ->. exact Big. }
  split; [exact Eo|].
  destruct Hs as (ws & (Lw & Sw & Ew) & Pw). destruct Hf as (us & (Lu & Su & Eu) & Pu).
  destruct ws as [|w0 [|w1 [|]]]; try discriminate Lw. destruct us as [|u0 [|u1 [|u2 [|]]]]; try discriminate Lu.
  unfold Rsum in Sw, Su. cbn [fold_right] in Sw, Su. assert (w0 = 1 - w1) by lra. assert (u0 = 1 - u1 - u2) by lra. subst w0 u0.
  assert (P1 : p = add3 (pp A) (scale3 w1 (sub3 (pp B) (pp A)))).
  { rewrite Ew. generalize (pp A) (pp B). intros a b. p3 a. p3 b. unfold o3. cbn. apply f_equal2; [apply f_equal2|]; ring. }
  assert (P2 : p = add3 (pp C) (add3 (scale3 u1 (sub3 (pp D') (pp C))) (scale3 u2 (sub3 (pp E) (pp C))))).
  { rewrite Eu. generalize (pp C) (pp D') (pp E). intros c d e. p3 c. p3 d. p3 e. unfold o3. cbn. apply f_equal2; [apply f_equal2|]; ring. }
  assert (Nz : dot3 (cross3 (sub3 (pp B) (pp A)) (sub3 (pp E) (pp C))) (sub3 (pp D') (pp C)) <> 0).
  { intros Z. apply T. rewrite triple_bunbo, Z. ring. }
  rewrite E1, P1. f_equal. f_equal.
  rewrite (mt_unique (pp A) (pp B) (pp C) (pp D') (pp E) x y t Nz) by congruence.
  rewrite (mt_unique (pp A) (pp B) (pp C) (pp D') (pp E) u1 u2 w1 Nz) by congruence. reflexivity.
Qed.

Lemma inside_hull v t : good 6 v -> length t = 4%nat -> goods 6 t -> pvol t <> 0 -> hull (map pp t) (pp v) -> inside_outside_tetrahedron_tau Rnum v t = Ok true.
Proof.
  intros Gv L G V H. rewrite L_C29_tau by (try apply goods_l6; try apply good_l6; assumption).
  destruct t as [|a [|b [|c [|d [|]]]]]; try discriminate L. apply L_C29_closed_tetrahedron; [apply pvol_flat; exact V|exact H].
Qed.

Lemma corner_admissible t1 t2 p : length t1 = 4%nat -> goods 6 t1 -> length t2 = 4%nat -> goods 6 t2 -> pvol t1 <> 0 -> pvol t2 <> 0 ->
  decided_pair t1 t2 -> corner (map pp t1) (map pp t2) p -> exists v, admissible insideR meetR t1 t2 v /\ pp v = p.
Proof.
  intros L1 G1 L2 G2 V1 V2 [D1 D2] [[I H]|[[I H]|[C|C]]].
  - apply in_map_iff in I as (v & <- & I). exists v. split; [|reflexivity]. left. split; [exact I|]. apply inside_hull; try assumption. first [exact (goods_in 6 _ _ G1 I)|exact (goods_in 6 _ _ G2 I)].
  - apply in_map_iff in I as (v & <- & I). exists v. split; [|reflexivity]. right; left. split; [exact I|]. apply inside_hull; try assumption. first [exact (goods_in 6 _ _ G1 I)|exact (goods_in 6 _ _ G2 I)].
  - destruct (crossing_found t1 t2 p L1 G1 L2 G2 D1 C) as (s & f & v & Es & Ef & _ & _ & _ & M & E). exists v. split; [|exact E]. right; right; left. eauto.
  - destruct (crossing_found t2 t1 p L2 G2 L1 G1 D2 C) as (s & f & v & Es & Ef & _ & _ & _ & M & E). exists v. split; [|exact E]. right; right; right. eauto.
Qed.

Lemma common_span t1 t2 p : length t1 = 4%nat -> goods 6 t1 -> length t2 = 4%nat -> goods 6 t2 -> pvol t1 <> 0 -> pvol t2 <> 0 ->
  decided_pair t1 t2 -> hull (map pp t1) p -> hull (map pp t2) p ->
  forall ps, (forall v, admissible insideR meetR t1 t2 v -> In (ppoint v) (map ppoint ps)) -> hull (map pp ps) p.
Proof.
  intros L1 G1 L2 G2 V1 V2 D H1 H2 ps A.
  destruct t1 as [|a [|b [|c [|d [|]]]]]; try discriminate L1. destruct t2 as [|a' [|b' [|c' [|d' [|]]]]]; try discriminate L2.
  destruct (overlap_span (pp a) (pp b) (pp c) (pp d) (pp a') (pp b') (pp c') (pp d') p) as (qs & Fq & Hq);
    [apply pvol_flat; exact V1|apply pvol_flat; exact V2|exact H1|exact H2|].
  apply (hull_trans qs _ _ Hq). intros q Iq. rewrite Forall_forall in Fq. specialize (Fq q Iq).
  destruct (corner_admissible [a;b;c;d] [a';b';c';d'] q L1 G1 L2 G2 V1 V2 D Fq) as (v & Av & <-).
  specialize (A v Av). apply in_map_iff in A as (u & Eu & Iu). apply hull_mem. rewrite <- (pp_ppoint u v Eu). apply in_map. exact Iu.
Qed.

Lemma class_not_0 t1 t2 p : length t1 = 4%nat -> goods 6 t1 -> length t2 = 4%nat -> goods 6 t2 -> pvol t1 <> 0 -> pvol t2 <> 0 ->
  decided_pair t1 t2 -> hull (map pp t1) p -> hull (map pp t2) p ->
  exists k, check_intersection_two_tetrahedron_4 Rnum t1 t2 = Ok k /\ (k = 1 \/ k = 2 \/ k = 3)%Z.
Proof.
  intros L1 G1 L2 G2 V1 V2 [D1 D2] H1 H2.
  destruct (L_C33_classes Rnum t1 t2 L1 G1 L2 G2) as (k & Ek & K1 & K2 & K3 & K0). exists k. split; [exact Ek|].
  assert (X : (forall v, In v (map pp t1) -> hull (map pp t2) v) \/ (forall v, In v (map pp t2) -> hull (map pp t1) v) \/
    (exists q, crossing (map pp t1) (map pp t2) q) \/ (exists q, crossing (map pp t2) (map pp t1) q)).
  { clear K1 K2 K3 K0 Ek D1 D2. destruct t1 as [|a [|b [|c [|d [|]]]]]; try discriminate L1. destruct t2 as [|a' [|b' [|c' [|d' [|]]]]]; try discriminate L2.
    apply (overlap_cases (pp a) (pp b) (pp c) (pp d) (pp a') (pp b') (pp c') (pp d') p); [apply pvol_flat; exact V1|apply pvol_flat; exact V2|exact H1|exact H2]. }
  destruct X as [A|[A|[(q & C)|(q & C)]]].
  - left. apply K1. intros v I. exact (inside_hull v t2 (goods_in 6 _ _ G1 I) L2 G2 V2 (A _ (in_map pp _ _ I))).
  - destruct (classic (forall v, In v t1 -> inside_outside_tetrahedron_tau Rnum v t2 = Ok true)) as [B|B]; [left; apply K1; exact B|].
    right; left. apply K2. split; [exact B|]. intros v I. exact (inside_hull v t1 (goods_in 6 _ _ G2 I) L1 G1 V1 (A _ (in_map pp _ _ I))).
  - destruct (crossing_found t1 t2 q L1 G1 L2 G2 D1 C) as (s & f & v & Es & Ef & Hs & Hf & Big & _).
    destruct (L_C33_crossing_not_0 t1 t2 s f q L1 G1 L2 G2 (or_introl (conj Es Ef)) Hs Hf Big) as (k' & E' & K'). congruence.
  - destruct (crossing_found t2 t1 q L2 G2 L1 G1 D2 C) as (s & f & v & Es & Ef & Hs & Hf & Big & _).
    destruct (L_C33_crossing_not_0 t1 t2 s f q L1 G1 L2 G2 (or_intror (conj Es Ef)) Hs Hf Big) as (k' & E' & K'). congruence.
Qed.

(** The coplanarity check. *)
Lemma coplanar_true_near draws ps : (3 < length ps)%nat -> coplanar_check_numeric Rnum draws ps = Ok (Some true) -> near_plane (1/10000) ps.
Proof.
  intros L H. unfold coplanar_check_numeric in H. rewrite (proj2 (Nat.ltb_lt _ _) L) in H.
  apply bind_Ok_inv in H as (g & Eg & H). destruct g as [[[[i j] k] n]|]; [|discriminate].
  assert (G : exists pi pj pk, nth_error ps i = Some pi /\ nth_error ps j = Some pj /\ nth_error ps k = Some pk /\ n = cross3 (sub3 pj pi) (sub3 pk pi) /\ small Rnum n = false).
  { clear H. induction draws as [|[[x y] z] draws IH]; [discriminate|]. cbn [first_good] in Eg. apply bind_Ok_inv in Eg as (m & Em & Eg).
    destruct (small Rnum m) eqn:Sm; [exact (IH Eg)|]. injection Eg as -> -> -> ->.
    unfold triple_normal in Em. apply bind_Ok_inv in Em as (p1 & E1 & Em). apply bind_Ok_inv in Em as (p0 & E0 & Em). apply bind_Ok_inv in Em as (p2 & E2 & Em).
    injection Em as <-. exists p0, p1, p2. unfold get in *.
    destruct (nth_error ps j); [|discriminate]. destruct (nth_error ps i); [|discriminate]. destruct (nth_error ps k); [|discriminate].
    injection E0 as <-. injection E1 as <-. injection E2 as <-. split; [reflexivity|]. split; [reflexivity|]. split; [reflexivity|]. split; [toR; reflexivity|exact Sm]. }
  destruct G as (pi & pj & pk & Ni & Nj & Nk & En & Es). cbn [fst] in H.
  apply bind_Ok_inv in H as (p0 & E0 & H). assert (p0 = pi) by (unfold get in E0; change (Num.pt Rnum) with R3 in *; rewrite Ni in E0; injection E0; auto). subst p0.
  apply bind_Ok_inv in H as (b & Eb & H). injection H as ->.
  destruct (all_near_R ps n pi (others (length ps) (i,j,k))) as (b & Eb' & Hb).
  { rewrite Forall_forall. intros x Hx. apply others_spec in Hx. tauto. }
  change (Num.pt Rnum) with R3 in *. rewrite Eb in Eb'. injection Eb' as <-. destruct Hb as [Hb _]. specialize (Hb eq_refl).
  apply (near_plane_of ps n pi); [apply not_small_norm; exact Es|]. apply Forall_forall. intros p Hp. apply In_nth_error in Hp as (x & Nx).
  assert (Hx : (x < length ps)%nat) by (apply nth_error_Some; congruence).
  assert (Z : forall q, q = 0 -> Rabs q < 1/10000000000) by (intros q ->; rewrite Rabs_R0; lra). rewrite En in *.
  destruct (Nat.eq_dec x i) as [->|Di]; [rewrite Ni in Nx; injection Nx as <-; apply Z; p3 pi; p3 pj; p3 pk; cbn; ring|].
  destruct (Nat.eq_dec x j) as [->|Dj]; [rewrite Nj in Nx; injection Nx as <-; apply Z; p3 pi; p3 pj; p3 pk; cbn; ring|].
  destruct (Nat.eq_dec x k) as [->|Dk]; [rewrite Nk in Nx; injection Nx as <-; apply Z; p3 pi; p3 pj; p3 pk; cbn; ring|].
  apply (Hb x p); [apply others_spec; tauto|exact Nx].
Qed.
Lemma unit_of m : m <> o3 -> exists n, norm3 n = 1 /\ forall k, exists j, forall q, dot3 m q = k -> dot3 n q = j.
Proof.
  intros Nz. assert (Np : norm3 m <> 0).
  { intros E. apply Nz, dot3_zero. rewrite <- norm3_sq, E. ring. }
  pose proof (norm3_pos m) as P. exists (scale3 (/ norm3 m) m). split.
  - rewrite norm3_scale; [field; exact Np|]. left. apply Rinv_0_lt_compat. lra.
  - intros k. exists (/ norm3 m * k). intros q <-. apply dot3_scale.
Qed.
Lemma few_near_plane ps : (length ps < 4)%nat -> near_plane (1/10000) ps.
Proof.
  intros L. assert (C : coplanar3 ps).
  { destruct ps as [|a [|b [|c [|]]]]; [| | | |cbn in L; lia].
    - exists (1,0,0), 0. split; [unfold o3; intros E; injection E; lra|constructor].
    - exists (1,0,0), (dot3 (1,0,0) a). split; [unfold o3; intros E; injection E; lra|]. repeat constructor.
    - destruct (two_normals (sub3 b a) (sub3 b a)) as (e & Ne & H & _). exists e, (dot3 e a). split; [exact Ne|]. repeat constructor.
      p3 a. p3 b. p3 e. cbn in *. lra.
    - destruct (two_normals (sub3 b a) (sub3 c a)) as (e & Ne & H & H'). exists e, (dot3 e a). split; [exact Ne|]. repeat constructor.
      + p3 a. p3 b. p3 e. cbn in *. lra.
      + p3 a. p3 c. p3 e. cbn in *. lra. }
  destruct C as (m & k & Nz & H). destruct (unit_of m Nz) as (n & Nn & U). destruct (U k) as (j & Hj). exists n, j. split; [exact Nn|].
  eapply Forall_impl; [|exact H]. cbn. intros p Hp. rewrite (Hj p Hp). replace (j - j) with 0 by ring. rewrite Rabs_R0. lra.
Qed.
Lemma hull_slab ps n d h p : 0 < h -> Forall (fun p => Rabs (dot3 n p - d) < h) ps -> hull ps p -> Rabs (dot3 n p - d) < h.
Proof.
  intros Hh H Hp. apply (convex_hull (fun p => Rabs (dot3 n p - d) < h) ps p); [|exact H|exact Hp].
  intros a b k Ha Hb K. apply Rabs_def2 in Ha, Hb.
  assert (E : dot3 n (mix k a b) - d = k * (dot3 n a - d) + (1 - k) * (dot3 n b - d)) by (unfold mix; p3 a; p3 b; p3 n; cbn; ring).
  rewrite E. set (x := dot3 n a - d) in *. set (y := dot3 n b - d) in *. clearbody x y. destruct K as [[K0|<-] K1]; [|apply Rabs_def1; lra].
  assert (k * x < k * h) by (apply Rmult_lt_compat_l; lra). assert (k * (- h) < k * x) by (apply Rmult_lt_compat_l; lra).
  assert ((1 - k) * y <= (1 - k) * h) by (apply Rmult_le_compat_l; lra). assert ((1 - k) * (- h) <= (1 - k) * y) by (apply Rmult_le_compat_l; lra).
  apply Rabs_def1; lra.
Qed.
Lemma thin_of t1 t2 ps : near_plane (1/10000) (map pp ps) -> (forall q, hull (map pp t1) q -> hull (map pp t2) q -> hull (map pp ps) q) -> thin t1 t2.
Proof.
  intros (n & d & Nn & H) S. exists n, d. split; [exact Nn|]. intros q H1 H2. apply (hull_slab (map pp ps)); [lra|exact H|apply S; assumption].
Qed.

(** The triangulation. *)
Lemma tetra_covers_opt delaunay p r q : goods 6 p -> (forall q l, delaunay q = Some l -> covers q l) ->
  tetrahedralization_points Rnum delaunay p = Ok r -> hull (map pp p) q -> exists o, r = Some o /\ region o q.
Proof.
  intros G Cov H Hq. unfold tetrahedralization_points in H. destruct p as [|p0 p']; [discriminate|]. set (p := p0 :: p') in *.
  apply bind_Ok_inv in H as (qs & Eq & H). destruct (delaunay qs) as [l|] eqn:Ed; [|discriminate].
  apply bind_Ok_inv in H as (o & Eo & H). injection H as <-.
  assert (Q : qs = map ppoint p).
  { clear - G Eq. revert qs Eq. induction G as [|v p Gv G IH]; intros qs Eq; cbn [mapM] in Eq; [injection Eq as <-; reflexivity|].
    apply bind_Ok_inv in Eq as (x & Ex & Eq). apply bind_Ok_inv in Eq as (y & Ey & Eq). injection Eq as <-. cbn [map]. f_equal; [|apply IH; exact Ey].
    apply bind_Ok_inv in Ex as (w & Ew & Ex). injection Ex as <-. rewrite numerical_vector_R.
    destruct (wp_elim _ _ (projection3_spec v Gv)) as (w' & Ew' & _ & V). rewrite Ew in Ew'. injection Ew' as <-. exact V. }
  assert (M : map pt3 qs = map pp p) by (rewrite Q, map_map; reflexivity).
  destruct (Cov qs l Ed q) as (i & j & k & m & a & b & c & d & Il & Na & Nb & Nc & Nd & NF & Hh); [rewrite M; exact Hq|].
  destruct (keep_spec p l o G Eo) as (ts & F2 & _ & I).
  assert (Get : forall x y, nth_error qs x = Some y -> exists v, nth_error p x = Some v /\ pt3 y = pp v).
  { intros x y Nx. rewrite Q, nth_error_map in Nx. destruct (nth_error p x) as [v|]; [|discriminate]. injection Nx as <-. exists v. split; reflexivity. }
  destruct (Get i a Na) as (va & Va & Ea). destruct (Get j b Nb) as (vb & Vb & Eb). destruct (Get k c Nc) as (vc & Vc & Ec). destruct (Get m d Nd) as (vd & Vd & Ed').
  assert (T : exists t, In t ts /\ vertices_at p (i, j, k, m) t).
  { clear - F2 Il. induction F2 as [|s t l ts H _ IH]; [destruct Il|]. destruct Il as [->|Il]; [exists t; cbn; tauto|]. destruct (IH Il) as (t' & It & V). exists t'. cbn; tauto. }
  destruct T as (t & It & (a' & b' & c' & d' & Pa & Pb & Pc & Pd & ->)).
  rewrite Va in Pa. rewrite Vb in Pb. rewrite Vc in Pc. rewrite Vd in Pd. injection Pa as <-. injection Pb as <-. injection Pc as <-. injection Pd as <-.
  cbn [map] in Hh. rewrite Ea, Eb, Ec, Ed' in *. assert (Io : In [va; vb; vc; vd] o) by (apply I; split; [exact It|]; apply pvol_flat; exact NF).
  exists o. split; [destruct o; [destruct Io|reflexivity]|]. exists [va; vb; vc; vd]. split; [exact Io|exact Hh].
Qed.
Lemma tetra_covers delaunay p o q : goods 6 p -> (forall q l, delaunay q = Some l -> covers q l) ->
  tetrahedralization_points Rnum delaunay p = Ok (Some o) -> hull (map pp p) q -> region o q.
Proof. intros G Cov H Hq. destruct (tetra_covers_opt delaunay p _ q G Cov H Hq) as (o' & E & R). injection E as <-. exact R. Qed.

(** A pair that is reached and overlaps has been computed. *)
Lemma inner_reached (classify : vecs -> vecs -> res Z) inter i t1 o2 : forall j acc r k t2, inner_loop classify inter i j t1 o2 acc = Ok r ->
  nth_error o2 k = Some t2 -> (forall k' t', (k' < k)%nat -> nth_error o2 k' = Some t' -> classify t1 t' <> Ok 1%Z) ->
  classify t1 t2 = Ok 3%Z -> exists q, inter i (j + k)%nat t1 t2 = Ok q.
Proof.
  induction o2 as [|t o2 IH]; intros j acc r k t2 H N X C; [destruct k; discriminate|]. cbn [inner_loop] in H.
  apply bind_Ok_inv in H as (f & Ef & H). destruct k as [|k].
  - cbn in N. injection N as ->. rewrite C in Ef. injection Ef as <-. cbn in H. apply bind_Ok_inv in H as (q & Eq & _). rewrite Nat.add_0_r. eauto.
  - assert (X0 := X 0%nat t ltac:(lia) eq_refl). rewrite Nat.add_succ_r, <- Nat.add_succ_l.
    assert (X' : forall k' t', (k' < k)%nat -> nth_error o2 k' = Some t' -> classify t1 t' <> Ok 1%Z) by (intros k' t' Lt Nt; apply (X (S k') t'); [lia|exact Nt]).
    destruct (Z.eqb_spec f 1) as [->|_]; [congruence|].
    destruct (Z.eqb f 2); [exact (IH _ _ _ _ _ H N X' C)|]. destruct (Z.eqb f 3); [|exact (IH _ _ _ _ _ H N X' C)].
    apply bind_Ok_inv in H as (q & _ & H). exact (IH _ _ _ _ _ H N X' C).
Qed.
Lemma reached rough (classify : vecs -> vecs -> res Z) inter simple o1 o2 r i j t1 t2 : common_pieces rough classify inter simple o1 o2 = Ok r ->
  nth_error o1 i = Some t1 -> nth_error o2 j = Some t2 -> rough t1 = Ok true ->
  (forall k' t', (k' < j)%nat -> nth_error o2 k' = Some t' -> classify t1 t' <> Ok 1%Z) ->
  classify t1 t2 = Ok 3%Z -> exists q, inter i j t1 t2 = Ok q.
Proof.
  intros H Hi Hj Hr X C. unfold common_pieces in H. apply bind_Ok_inv in H as (c & Ec & _).
  destruct (outer_spec rough classify inter simple 0 o1 o2 c Ec) as (cs & _ & Lc & Hc).
  destruct (nth_same_length o1 cs i t1 (eq_sym Lc) Hi) as (x & Nx). specialize (Hc i t1 x Hi Nx). cbn [Nat.add] in Hc.
  unfold contribution in Hc. rewrite Hr in Hc. cbn [bind] in Hc. apply bind_Ok_inv in Hc as (b & Eb & _).
  destruct (inner_reached classify inter i t1 o2 0 None b j t2 Eb Hj X C) as (q & Eq). eauto.
Qed.

(** Line and plane that are not parallel have one common point. *)
Lemma line_plane (a b c d e p q : R3) w0 w1 v0 v1 v2 w0' w1' v0' v1' v2' : triple3 (sub3 b a) (sub3 d c) (sub3 e c) <> 0 ->
  bary [w0; w1] [a; b] p -> bary [v0; v1; v2] [c; d; e] p -> bary [w0'; w1'] [a; b] q -> bary [v0'; v1'; v2'] [c; d; e] q -> p = q.
Proof.
  intros T (_ & S1 & E1) (_ & S2 & E2) (_ & S3 & E3) (_ & S4 & E4). unfold Rsum in *. cbn [fold_right] in *.
  assert (w0 = 1 - w1) by lra. assert (w0' = 1 - w1') by lra. assert (v0 = 1 - v1 - v2) by lra. assert (v0' = 1 - v1' - v2') by lra. subst w0 w0' v0 v0'.
  assert (Nz : dot3 (cross3 (sub3 b a) (sub3 e c)) (sub3 d c) <> 0) by (intros Z; apply T; rewrite triple_bunbo, Z; ring).
  assert (P1 : forall k, comb [1 - k; k] [a; b] = add3 a (scale3 k (sub3 b a))) by (intros k; p3 a; p3 b; unfold o3; cbn; apply f_equal2; [apply f_equal2|]; ring).
  assert (P2 : forall k l, comb [1 - k - l; k; l] [c; d; e] = add3 c (add3 (scale3 k (sub3 d c)) (scale3 l (sub3 e c))))
    by (intros k l; p3 c; p3 d; p3 e; unfold o3; cbn; apply f_equal2; [apply f_equal2|]; ring).
  rewrite P1 in E1, E3. rewrite P2 in E2, E4.
  rewrite E1, E3. f_equal. f_equal.
  rewrite (mt_unique a b c d e v1 v2 w1 Nz) by congruence. rewrite (mt_unique a b c d e v1' v2' w1' Nz) by congruence. reflexivity.
Qed.
(** A tetrahedron and itself. *)
Lemma clear_self a b c d : clear_pair [a; b; c; d] [a; b; c; d].
Proof.
  split.
  { intros v I _. apply hull_mem, in_map, I. }
  intros x y u v w p [Ss Ls] [Sf Lf] T (ws & Bw & _) (vs & Bv & _).
  destruct ws as [|w0 [|w1 [|]]]; try (destruct Bw as [Bw _]; discriminate Bw). destruct vs as [|v0 [|v1 [|v2 [|]]]]; try (destruct Bv as [Bv _]; discriminate Bv).
  enough (V : exists z, p = pp z /\ In z [x; y] /\ In z [u; v; w]).
  { destruct V as (z & -> & I & J). split; apply hull_mem, in_map; assumption. }
  assert (Z : exists z, In z [x; y] /\ In z [u; v; w]).
  { apply subseq2 in Ss; [|reflexivity]. apply subseq3 in Sf; [|reflexivity]. clear - Ss Sf.
    destruct Ss as [E|[E|[E|[E|[E|[E|[]]]]]]]; injection E as <- <-; destruct Sf as [E|[E|[E|[E|[]]]]]; injection E as <- <- <-;
      first [exists a; cbn; tauto|exists b; cbn; tauto|exists c; cbn; tauto|exists d; cbn; tauto]. }
  destruct Z as (z & I & J). exists z. split; [|split; assumption].
  assert (B1 : exists k l, bary [k; l] [pp x; pp y] (pp z)).
  { destruct (hull_mem _ _ (in_map pp _ _ I)) as (ks & B & _). destruct ks as [|k [|l [|]]]; try (destruct B as [B _]; discriminate B). exists k, l. exact B. }
  assert (B2 : exists k l m, bary [k; l; m] [pp u; pp v; pp w] (pp z)).
  { destruct (hull_mem _ _ (in_map pp _ _ J)) as (ks & B & _). destruct ks as [|k [|l [|m [|]]]]; try (destruct B as [B _]; discriminate B). exists k, l, m. exact B. }
  destruct B1 as (k & l & B1). destruct B2 as (k' & l' & m' & B2).
  exact (line_plane _ _ _ _ _ p (pp z) w0 w1 v0 v1 v2 k l k' l' m' T Bw Bv B1 B2).
Qed.
