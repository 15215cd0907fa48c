(** From the tests in binary64 to pairs of triangles. *)
From Coq Require Import Reals List ZArith Bool Lia Lra Classical.
From Verif Require Import Base.Res Model.Tau Model.Arr Model.Num Model.DodeMath1 Model.DodeNumeric Model.IcoIntersect Model.DodeIntersect
  Spec.LinAlg Spec.Value Spec.RVec Spec.Shape Spec.DodeSpec Spec.Sets Spec.Space Spec.Tetra Spec.Overlap Spec.Plane Spec.Float Spec.PlaneFloat
  Proofs.ResLemmas Proofs.RVecLemmas Proofs.Irrational Proofs.NumLemmas Proofs.IntersectLemmas Proofs.ObjLemmas Proofs.DedupLemmas Proofs.DodeProj Proofs.DodeDedupLemmas Proofs.DodeAreaLemmas Proofs.PlaneLemmas Proofs.Polytope Proofs.Polygon
  Proofs.OverlapLemmas Proofs.DodeIntersectLemmas Proofs.DodeObjLemmas Proofs.P_DodeIntersect Proofs.DodeOverlapLemmas Proofs.DodeFloatTests.
Import ListNotations.
Local Open Scope R_scope.
Notation insideB := (fun v t => inside_outside_triangle_tau Bmath v t = Ok true).
Notation meetB := (fun s e v => dintersection_two_segment Bmath s e = Ok (Some v)).
Notation h1 := (1/1000000).
Local Notation Bnum := Bmath.

Section Lib.
Context {la : linalg} {LA : linalg_ok la}.


Lemma tame2_incl A D h vs ws : tame2 A D h vs -> incl ws vs -> tame2 A D h ws.
Proof.
  intros (HA & HD & HM & C & Sp & Lv) I. split; [exact HA|]. split; [exact HD|]. split; [exact HM|]. split; [|split].
  - rewrite Forall_forall in *. auto.
  - intros p q Ip Iq. apply in_map_iff in Ip as (v & <- & Iv). apply in_map_iff in Iq as (w & <- & Iw). apply Sp; apply in_map; auto.
  - exact (level_incl h vs ws Lv I).
Qed.
Lemma fit2_sym A D h t1 t2 : fit_pair2 A D h t1 t2 -> fit_pair2 A D h t2 t1.
Proof.
  intros (T & P1 & P2 & S). split; [|split; [exact P2|split; [exact P1|]]].
  - apply (tame2_incl A D h (t1 ++ t2)); [exact T|]. intros v I. apply in_app_iff. apply in_app_iff in I. tauto.
  - intros s e Hs He. destruct (S e s He Hs). auto.
Qed.
Lemma fit2_edges A D h t1 t2 a b c d : fit_pair2 A D h t1 t2 -> edge_of [a; b] t1 -> edge_of [c; d] t2 -> tame2 A D h [a; b; c; d] /\ sharp2 A D [a; b] [c; d].
Proof.
  intros (T & _ & _ & S) E F. split; [|exact (proj1 (S _ _ E F))]. apply (tame2_incl A D h (t1 ++ t2) _ T).
  destruct E as [E _], F as [F _]. apply subseq_incl in E, F. intros v I. apply in_app_iff.
  change [a; b; c; d] with ([a; b] ++ [c; d]) in I. apply in_app_iff in I as [I|I]; auto.
Qed.
Lemma fit2_level A D h t1 t2 : fit_pair2 A D h t1 t2 -> level h (t1 ++ t2).
Proof. intros ((_ & _ & _ & _ & _ & L) & _). exact L. Qed.
Lemma fit2_area A D h t1 t2 : fit_pair2 A D h t1 t2 -> parea t1 <> 0 /\ parea t2 <> 0.
Proof.
  intros ((HA & HD & _) & P1 & P2 & _). unfold plump2 in *. assert (0 < (A + D) * D) by (apply Rmult_lt_0_compat; lra). split; intros Z; rewrite Z in *; lra.
Qed.
Lemma fit2_inside A D h t1 t2 v : fit_pair2 A D h t1 t2 -> In v t1 -> tame2 A D h (v :: t2) /\ plump2 A D t2.
Proof. intros F I. split; [|apply F]. apply (tame2_incl A D h (t1 ++ t2)); [apply F|]. intros w [<-|J]; apply in_app_iff; auto. Qed.

Lemma inside2_hull_B A D h t1 t2 v : fit_pair2 A D h t1 t2 -> tri1 t2 -> In v t1 -> hull (map dp t2) (dp v) -> inside_outside_triangle_tau Bnum v t2 = Ok true.
Proof. intros F T I H. destruct (fit2_inside A D h t1 t2 v F I) as [Ta Pl]. apply (inside2_B A D h v t2 Ta (proj1 T) Pl). exact H. Qed.
Lemma inside2_near_B A D h t1 t2 v : fit_pair2 A D h t1 t2 -> tri1 t2 -> In v t1 -> inside_outside_triangle_tau Bnum v t2 = Ok true -> near h1 (map dp t2) (dp v).
Proof.
  intros F [L _] I H. destruct (fit2_inside A D h t1 t2 v F I) as [Ta Pl]. destruct (inside2_B A D h v t2 Ta L Pl) as [_ Far].
  assert (NZ := proj2 (fit2_area _ _ _ _ _ F)). destruct Ta as (_ & _ & _ & _ & _ & Lv).
  destruct t2 as [|a [|b [|c [|]]]]; try discriminate L. cbn [map] in *. apply parea_flat in NZ.
  assert (Hh : forall w, In w [v; a; b; c] -> height (dp w) = h) by (unfold level in Lv; rewrite Forall_forall in Lv; exact Lv). cbn [In] in Hh.
  destruct (bary3_exists h (dp a) (dp b) (dp c) (dp v)) as (ws & B); try (apply Hh; tauto); [exact NZ|]. exists ws. split; [exact B|]. apply Forall_forall. intros w Iw.
  destruct (Rle_dec w (- h1)) as [C|C]; [|lra]. rewrite (Far ws w B Iw C) in H. discriminate.
Qed.

Lemma seg_solution h (a b c d : R3) : height a = h -> height b = h -> height c = h -> height d = h -> det2 (sub3 b a) (sub3 d c) <> 0 ->
  exists s t, add3 a (scale3 s (sub3 b a)) = add3 c (scale3 t (sub3 d c)).
Proof.
  destruct a as [[a0 a1] a2], b as [[b0 b1] b2], c as [[c0 c1] c2], d as [[d0 d1] d2]. unfold height. cbn. intros -> -> -> -> N.
  exists (((c0 - a0) * (d1 - c1) - (c1 - a1) * (d0 - c0)) / ((b0 - a0) * (d1 - c1) - (b1 - a1) * (d0 - c0))),
         (((c0 - a0) * (b1 - a1) - (c1 - a1) * (b0 - a0)) / ((b0 - a0) * (d1 - c1) - (b1 - a1) * (d0 - c0))).
  apply f_equal2; [apply f_equal2|]; field; exact N.
Qed.
Lemma on_seg (a b : R3) t m : m <= t <= 1 - m -> near (- m) [a; b] (add3 a (scale3 t (sub3 b a))).
Proof.
  intros Ht. exists [1 - t; t]. split; [|repeat (apply Forall_cons; [lra|]); constructor]. split; [reflexivity|]. split; [cbn [Rsum]; ring|].
  destruct a as [[? ?] ?], b as [[? ?] ?]. unfold o3. cbn. apply f_equal2; [apply f_equal2|]; ring.
Qed.
Lemma seg_param (a b p : R3) m : near m [a; b] p -> exists t, - m <= t <= 1 + m /\ p = add3 a (scale3 t (sub3 b a)).
Proof.
  intros (ws & (L & S & E) & P). destruct ws as [|w0 [|w1 [|]]]; try discriminate L. cbn [Rsum] in S. rewrite Forall_forall in P.
  pose proof (P w0 ltac:(cbn; auto)). pose proof (P w1 ltac:(cbn; auto)). assert (w0 = 1 - w1) by lra. subst w0. exists w1. split; [lra|].
  rewrite E. destruct a as [[? ?] ?], b as [[? ?] ?]. unfold o3. cbn. apply f_equal2; [apply f_equal2|]; ring.
Qed.
Lemma turn_cross h a b c d : level h [a; b; c; d] -> turn a b c d <> 0 -> cross3 (sub3 (dp b) (dp a)) (sub3 (dp d) (dp c)) <> o3.
Proof. intros Lv N Z. apply N. unfold turn. destruct (dp a) as [[? ?] ?], (dp b) as [[? ?] ?], (dp c) as [[? ?] ?], (dp d) as [[? ?] ?]. cbn in *. injection Z as _ _ Z. lra. Qed.

Lemma check_of_meet N s e v : dintersection_two_segment N s e = Ok (Some v) -> dcheck_intersection_two_segment_numerical_6d_tau N s e = Ok true.
Proof. unfold dintersection_two_segment. destruct (dcheck_intersection_two_segment_numerical_6d_tau N s e) as [[|]|]; [reflexivity|discriminate|discriminate]. Qed.
Lemma edge_two s t : edge_of s t -> exists a b, s = [a; b].
Proof. intros [_ L]. destruct s as [|a [|b [|]]]; try discriminate L. eauto. Qed.
Lemma edges_good t1 t2 a b c d : tri1 t1 -> tri1 t2 -> edge_of [a; b] t1 -> edge_of [c; d] t2 -> goods 6 [a; b; c; d].
Proof. intros [_ G1] [_ G2] E F. apply (Forall_app (good 6) [a; b] [c; d]). split; [exact (subseq_goods _ _ (proj1 E) G1)|exact (subseq_goods _ _ (proj1 F) G2)]. Qed.

(** What a returned crossing point is. *)
Lemma dmeet_near_B A D h t1 t2 s e v : fit_pair2 A D h t1 t2 -> tri1 t1 -> tri1 t2 -> edge_of s t1 -> edge_of e t2 -> dintersection_two_segment Bnum s e = Ok (Some v) ->
  near h1 (map dp s) (dp v) /\ near h1 (map dp e) (dp v) /\ exists a b c d, s = [a; b] /\ e = [c; d] /\ turn a b c d <> 0.
Proof.
  intros F T1 T2 Hs He H. destruct (edge_two _ _ Hs) as (a & b & ->). destruct (edge_two _ _ He) as (c & d & ->).
  destruct (fit2_edges A D h t1 t2 a b c d F Hs He) as [T Sh]. destruct (crossing2_B A D h a b c d T) as [Par Cr].
  assert (Ck := check_of_meet _ _ _ _ H). assert (G4 := edges_good _ _ _ _ _ _ T1 T2 Hs He).
  assert (Nz : turn a b c d <> 0) by (intros Z; rewrite (Par Z) in Ck; discriminate).
  destruct (Sh a b c d eq_refl eq_refl) as [Z|Big]; [contradiction|].
  assert (Lv : level h [a; b; c; d]) by apply T. assert (Hh : forall w, In w [a; b; c; d] -> height (dp w) = h) by (unfold level in Lv; rewrite Forall_forall in Lv; exact Lv). cbn [In] in Hh.
  destruct (seg_solution h (dp a) (dp b) (dp c) (dp d)) as (x & y & Sol); try (apply Hh; tauto); [exact Nz|].
  destruct (Cr Nz Big x y Sol) as [R _]. destruct (R Ck) as (Hx & Hy).
  destruct (L_C71_point Bnum a b c d x y G4 Ck (turn_cross h a b c d Lv Nz) Sol) as (p & Ep & _ & _ & Pp). rewrite Ep in H. injection H as ->. cbn [map]. split; [|split].
  - rewrite Pp. replace h1 with (- (- h1)) by lra. apply on_seg. lra.
  - rewrite Pp, Sol. replace h1 with (- (- h1)) by lra. apply on_seg. lra.
  - exists a, b, c, d. auto.
Qed.
Lemma dadmissible_near_B A D h t1 t2 v : fit_pair2 A D h t1 t2 -> tri1 t1 -> tri1 t2 ->
  admissible2 insideB meetB t1 t2 v -> near h1 (map dp t1) (dp v) /\ near h1 (map dp t2) (dp v).
Proof.
  intros F T1 T2 [[I H]|[[I H]|[(s & e & Es & Ee & H)|(s & e & Es & Ee & H)]]].
  - split; [apply (near_weaken 0); [lra|]; apply mem_near, in_map, I|exact (inside2_near_B A D h t1 t2 v F T2 I H)].
  - split; [exact (inside2_near_B A D h t2 t1 v (fit2_sym _ _ _ _ _ F) T1 I H)|apply (near_weaken 0); [lra|]; apply mem_near, in_map, I].
  - destruct (dmeet_near_B A D h t1 t2 s e v F T1 T2 Es Ee H) as (N1 & N2 & _). destruct Es as [Ss _], Ee as [Se _].
    split; [apply (near_subseq _ (map dp s))|apply (near_subseq _ (map dp e))]; try lra; try assumption; apply subseq_map; assumption.
  - destruct (dmeet_near_B A D h t2 t1 s e v (fit2_sym _ _ _ _ _ F) T2 T1 Es Ee H) as (N1 & N2 & _). destruct Es as [Ss _], Ee as [Se _].
    split; [apply (near_subseq _ (map dp e))|apply (near_subseq _ (map dp s))]; try lra; try assumption; apply subseq_map; assumption.
Qed.
Lemma dadmissible_in_B A D h t1 t2 v : fit_pair2 A D h t1 t2 -> clear3_pair t1 t2 -> clear3_pair t2 t1 -> tri1 t1 -> tri1 t2 ->
  admissible2 insideB meetB t1 t2 v -> hull (map dp t1) (dp v) /\ hull (map dp t2) (dp v).
Proof.
  intros F C1 C2 T1 T2 [[I H]|[[I H]|[(s & e & Es & Ee & H)|(s & e & Es & Ee & H)]]].
  - split; [apply hull_mem, in_map, I|]. apply (proj1 C1 v I). exact (inside2_near_B A D h t1 t2 v F T2 I H).
  - split; [|apply hull_mem, in_map, I]. apply (proj1 C2 v I). exact (inside2_near_B A D h t2 t1 v (fit2_sym _ _ _ _ _ F) T1 I H).
  - destruct (dmeet_near_B A D h t1 t2 s e v F T1 T2 Es Ee H) as (N1 & N2 & a & b & c & d & -> & -> & Nz).
    destruct (proj2 C1 a b c d (dp v) Es Ee Nz N1 N2) as [H1 H2]. destruct Es as [Ss _], Ee as [Se _].
    split; [apply (hull_subseq [a; b])|apply (hull_subseq [c; d])]; assumption.
  - destruct (dmeet_near_B A D h t2 t1 s e v (fit2_sym _ _ _ _ _ F) T2 T1 Es Ee H) as (N1 & N2 & a & b & c & d & -> & -> & Nz).
    destruct (proj2 C2 a b c d (dp v) Es Ee Nz N1 N2) as [H1 H2]. destruct Es as [Ss _], Ee as [Se _].
    split; [apply (hull_subseq [c; d])|apply (hull_subseq [a; b])]; assumption.
Qed.
Lemma adm_level_B A D h t1 t2 v : fit_pair2 A D h t1 t2 -> tri1 t1 -> tri1 t2 -> admissible2 insideB meetB t1 t2 v -> height (dp v) = h.
Proof.
  intros F T1 T2 Ad. destruct (dadmissible_near_B A D h t1 t2 v F T1 T2 Ad) as [(ws & B & _) _].
  apply (bary_height h ws _ _ B). change (plan h (map dp t1)). apply level_plan, (level_incl _ _ _ (fit2_level _ _ _ _ _ F)), incl_appl, incl_refl.
Qed.

(** A proper crossing is found from both sides. *)
Lemma proper_found_B A D h t1 t2 a b c d p : fit_pair2 A D h t1 t2 -> tri1 t1 -> tri1 t2 -> edge_of [a; b] t1 -> edge_of [c; d] t2 ->
  turn a b c d <> 0 -> 12/10000000 <= turn a b c d ^ 2 -> crosses_at [a; b] [c; d] p ->
  (exists v, dintersection_two_segment Bnum [a; b] [c; d] = Ok (Some v) /\ dp v = p) /\ (exists v, dintersection_two_segment Bnum [c; d] [a; b] = Ok (Some v) /\ dp v = p).
Proof.
  intros F T1 T2 Hs He Nz Big [C1 C2].
  assert (One : forall t1 t2 a b c d, fit_pair2 A D h t1 t2 -> tri1 t1 -> tri1 t2 -> edge_of [a; b] t1 -> edge_of [c; d] t2 -> turn a b c d <> 0 -> 12/10000000 <= turn a b c d ^ 2 ->
    near (- h1) (map dp [a; b]) p -> near (- h1) (map dp [c; d]) p -> exists v, dintersection_two_segment Bnum [a; b] [c; d] = Ok (Some v) /\ dp v = p).
  { clear - LA. intros t1 t2 a b c d F T1 T2 Hs He Nz Big C1 C2. destruct (fit2_edges A D h t1 t2 a b c d F Hs He) as [T Sh]. destruct (crossing2_B A D h a b c d T) as [_ Cr].
    destruct (Sh a b c d eq_refl eq_refl) as [Z|Sp]; [contradiction|]. cbn [map] in *. apply seg_param in C1 as (x & Hx & Ex). apply seg_param in C2 as (y & Hy & Ey).
    assert (Sol : add3 (dp a) (scale3 x (sub3 (dp b) (dp a))) = add3 (dp c) (scale3 y (sub3 (dp d) (dp c)))) by congruence.
    destruct (Cr Nz Sp x y Sol) as [_ R]. assert (Ck := R Big ltac:(lra) ltac:(lra)).
    destruct (L_C71_point Bnum a b c d x y (edges_good _ _ _ _ _ _ T1 T2 Hs He) Ck (turn_cross h a b c d ltac:(apply T) Nz) Sol) as (v & Ev & _ & _ & Pv).
    exists v. split; [exact Ev|congruence]. }
  split; [exact (One t1 t2 a b c d F T1 T2 Hs He Nz Big C1 C2)|].
  assert (E : turn c d a b = - turn a b c d) by apply turn_swap.
  apply (One t2 t1 c d a b (fit2_sym _ _ _ _ _ F) T2 T1 He Hs); [rewrite E; lra|rewrite E; replace ((- turn a b c d) ^ 2) with (turn a b c d ^ 2) by ring; exact Big|exact C2|exact C1].
Qed.

Section Neat.
Variables (A D h : R) (t1 t2 : vecs).
Hypothesis (F : fit_pair2 A D h t1 t2) (Nt : neat_pair t1 t2) (T1 : tri1 t1) (T2 : tri1 t2).

(** A corner of the common part is a vertex inside the other triangle or a proper crossing. *)
Lemma corner_kinds p : corner2 (map dp t1) (map dp t2) p ->
  (exists v, In v t1 /\ dp v = p /\ inside_outside_triangle_tau Bnum v t2 = Ok true) \/ (exists v, In v t2 /\ dp v = p /\ inside_outside_triangle_tau Bnum v t1 = Ok true) \/
  exists a b c d, edge_of [a; b] t1 /\ edge_of [c; d] t2 /\ turn a b c d <> 0 /\ 12/10000000 <= turn a b c d ^ 2 /\ crosses_at [a; b] [c; d] p.
Proof.
  assert (In1 : forall v, In v t1 -> hull (map dp t2) (dp v) -> inside_outside_triangle_tau Bnum v t2 = Ok true) by (intros v I H; exact (inside2_hull_B A D h t1 t2 v F T2 I H)).
  assert (In2 : forall v, In v t2 -> hull (map dp t1) (dp v) -> inside_outside_triangle_tau Bnum v t1 = Ok true) by (intros v I H; exact (inside2_hull_B A D h t2 t1 v (fit2_sym _ _ _ _ _ F) T1 I H)).
  intros [[I H]|[[I H]|C]].
  - apply in_map_iff in I as (v & <- & I). left. exists v. auto.
  - apply in_map_iff in I as (v & <- & I). right; left. exists v. auto.
  - destruct C as (u & v & x & y & Ss & Se & K & H1 & H2). apply subseq_map_inv in Ss as (s & Ss & Es). apply subseq_map_inv in Se as (e & Se & Ee).
    assert (Ls : length s = 2%nat) by (rewrite <- (map_length dp), Es; reflexivity). assert (Le : length e = 2%nat) by (rewrite <- (map_length dp), Ee; reflexivity).
    destruct s as [|a [|b [|]]]; try discriminate Ls. destruct e as [|c [|d [|]]]; try discriminate Le. cbn [map] in Es, Ee. injection Es as <- <-. injection Ee as <- <-.
    assert (Hs : edge_of [a; b] t1) by (split; assumption). assert (He : edge_of [c; d] t2) by (split; assumption). change (turn a b c d <> 0) in K.
    destruct (Nt a b c d Hs He) as [Z|[Big Q]]; [contradiction|]. destruct (Q p H1 H2) as [Cr|(w & Iw & ->)]; [right; right; exists a, b, c, d; auto|].
    assert (S1 : incl [a; b] t1) by exact (subseq_incl _ _ Ss). assert (S2 : incl [c; d] t2) by exact (subseq_incl _ _ Se).
    change [a; b; c; d] with ([a; b] ++ [c; d]) in Iw. apply in_app_iff in Iw as [Iw|Iw].
    + left. exists w. split; [auto|]. split; [reflexivity|]. apply In1; [auto|]. apply (hull_subseq [c; d]); assumption.
    + right; left. exists w. split; [auto|]. split; [reflexivity|]. apply In2; [auto|]. apply (hull_subseq [a; b]); assumption.
Qed.
Lemma corners_span p : hull (map dp t1) p -> hull (map dp t2) p -> exists qs, Forall (corner2 (map dp t1) (map dp t2)) qs /\ hull qs p.
Proof.
  intros H1 H2. assert (Lv := fit2_level _ _ _ _ _ F). destruct (fit2_area _ _ _ _ _ F) as [V1 V2].
  assert (P1 : plan h (map dp t1)) by (apply level_plan, (level_incl _ _ _ Lv), incl_appl, incl_refl).
  assert (P2 : plan h (map dp t2)) by (apply level_plan, (level_incl _ _ _ Lv), incl_appr, incl_refl).
  clear F Nt Lv. destruct T1 as [L1 _], T2 as [L2 _]. destruct t1 as [|a [|b [|c [|]]]]; try discriminate L1. destruct t2 as [|a' [|b' [|c' [|]]]]; try discriminate L2.
  apply (overlap_span2 h (dp a) (dp b) (dp c) (dp a') (dp b') (dp c') p); first [assumption|apply parea_flat; assumption].
Qed.
Lemma common_span_B p : hull (map dp t1) p -> hull (map dp t2) p ->
  forall ps, (forall v, admissible2 insideB meetB t1 t2 v -> In (dppoint v) (map dppoint ps)) -> hull (map dp ps) p.
Proof.
  intros H1 H2 ps Ad. destruct (corners_span p H1 H2) as (qs & Fq & Hq).
  apply (hull_trans qs _ _ Hq). intros q Iq. rewrite Forall_forall in Fq. specialize (Fq q Iq).
  assert (X : exists v, admissible2 insideB meetB t1 t2 v /\ dp v = q).
  { destruct (corner_kinds q Fq) as [(v & I & E & H)|[(v & I & E & H)|(a & b & c & d & Hs & He & Nz & Big & C)]].
    - exists v. split; [left; auto|exact E].
    - exists v. split; [right; left; auto|exact E].
    - destruct (proper_found_B A D h t1 t2 a b c d q F T1 T2 Hs He Nz Big C) as [(v & M & E) _]. exists v. split; [right; right; left; eauto|exact E]. }
  destruct X as (v & Av & <-). specialize (Ad v Av). apply in_map_iff in Ad as (u & Eu & Iu). apply hull_mem. rewrite <- (dp_ppoint u v Eu). apply in_map. exact Iu.
Qed.
Lemma class_not_0_B : overlaps t1 t2 -> exists k, check_intersection_two_triangles Bnum t1 t2 = Ok k /\ (k = 1 \/ k = 2 \/ k = 3)%Z.
Proof.
  intros Ov. destruct (dclassify_spec Bnum t1 t2 (goods_l6 _ (proj2 T1)) (goods_l6 _ (proj2 T2)) (proj1 T1) (proj1 T2)) as [[_ E]|[(_ & _ & E)|[(_ & _ & _ & E)|(N1 & N2 & N3 & _)]]]; [eauto..|].
  exfalso. destruct Ov as [Q|[Q|(a & b & c & d & p & Hs & He & Nz & C)]].
  - apply N1. intros v I. exact (inside2_hull_B A D h t1 t2 v F T2 I (Q v I)).
  - apply N2. intros v I. exact (inside2_hull_B A D h t2 t1 v (fit2_sym _ _ _ _ _ F) T1 I (Q v I)).
  - apply N3. left. destruct (Nt a b c d Hs He) as [Z|[Big _]]; [contradiction|].
    destruct (proper_found_B A D h t1 t2 a b c d p F T1 T2 Hs He Nz Big C) as [(v & M & _) _]. exists [a; b], [c; d]. split; [exact Hs|]. split; [exact He|]. exact (check_of_meet _ _ _ _ M).
Qed.
(** Fewer than three points are collected only if the common part is one point. *)
Lemma few_hits_B k ps : overlaps t1 t2 -> check_intersection_two_triangles Bnum t1 t2 = Ok 3%Z -> dcollect Bnum t1 t2 = Ok (k, ps) -> (k < 3)%nat -> thin2 t1 t2.
Proof.
  intros Ov K3 E Lk.
  destruct (dclassify_spec Bnum t1 t2 (goods_l6 _ (proj2 T1)) (goods_l6 _ (proj2 T2)) (proj1 T1) (proj1 T2)) as [[_ X]|[(_ & _ & X)|[(M1 & M2 & _ & _)|(_ & _ & _ & X)]]]; try congruence.
  assert (P : exists a b c d p, edge_of [a; b] t1 /\ edge_of [c; d] t2 /\ turn a b c d <> 0 /\ 12/10000000 <= turn a b c d ^ 2 /\ crosses_at [a; b] [c; d] p).
  { destruct Ov as [Q|[Q|(a & b & c & d & p & Hs & He & Nz & C)]].
    - exfalso. apply M1. intros v I. exact (inside2_hull_B A D h t1 t2 v F T2 I (Q v I)).
    - exfalso. apply M2. intros v I. exact (inside2_hull_B A D h t2 t1 v (fit2_sym _ _ _ _ _ F) T1 I (Q v I)).
    - destruct (Nt a b c d Hs He) as [Z|[Big _]]; [contradiction|]. exists a, b, c, d, p. auto. }
  destruct P as (a & b & c & d & p & Hs & He & Nz & Big & C). clear M1 M2 K3.
  unfold dcollect in E. apply bind_Ok_inv in E as (hs & Eh & E).
  assert (X : exists va vb, dvertices_inside Bnum t1 t2 = Ok va /\ dvertices_inside Bnum t2 t1 = Ok vb /\ k = (length hs + length va + length vb)%nat).
  { destruct hs; [discriminate|]. apply bind_Ok_inv in E as (va & Ea & E). apply bind_Ok_inv in E as (vb & Eb & E). injection E as <- <-. exists va, vb. auto. }
  destruct X as (va & vb & Ea & Eb & ->). clear E.
  assert (L1 := proj1 T1). assert (L2 := proj1 T2).
  (* the two edges of a proper crossing count *)
  assert (Pts : forall t t' c r, tri1 t -> tri1 t' -> dedge_hits Bnum t1 t2 tedge_ix = Ok hs -> In c tedge_ix -> (t = t1 /\ t' = t2 \/ t = t2 /\ t' = t1) -> r = dedge_points Bnum t t' c -> exists q, r = Ok q).
  { intros t t' x r _ _ H Ix Q ->. unfold tedge_ix in H. cbn [dedge_hits] in H.
    apply bind_Ok_inv in H as (a0 & A0 & H). apply bind_Ok_inv in H as (b0 & B0 & H). apply bind_Ok_inv in H as (r0 & R0 & H).
    apply bind_Ok_inv in R0 as (a1 & A1 & R0). apply bind_Ok_inv in R0 as (b1 & B1 & R0). apply bind_Ok_inv in R0 as (r1 & R1 & R0).
    apply bind_Ok_inv in R1 as (a2 & A2 & R1). apply bind_Ok_inv in R1 as (b2 & B2 & R1).
    destruct Q as [[-> ->]|[-> ->]]; cbn [In tedge_ix] in Ix; destruct Ix as [<-|[<-|[<-|[]]]]; eauto. }
  assert (Side : forall a b c d q, edge_of [a; b] t1 -> edge_of [c; d] t2 -> turn a b c d <> 0 -> 12/10000000 <= turn a b c d ^ 2 -> crosses_at [a; b] [c; d] q ->
    exists x y r r', In x tedge_ix /\ In y tedge_ix /\ pick2 t1 x = Ok [a; b] /\ pick2 t2 y = Ok [c; d] /\ dedge_points Bnum t1 t2 x = Ok r /\ r <> [] /\ dedge_points Bnum t2 t1 y = Ok r' /\ r' <> []).
  { clear a b c d p Hs He Nz Big C. intros a b c d q Hs He Nz Big C. destruct (proper_found_B A D h t1 t2 a b c d q F T1 T2 Hs He Nz Big C) as [(v & M & _) (w & M' & _)].
    assert (Hs' := Hs). assert (He' := He). apply (tedge_pick t1 _ L1) in Hs' as (x & Ix & Ex). apply (tedge_pick t2 _ L2) in He' as (y & Iy & Ey).
    destruct (Pts t1 t2 x _ T1 T2 Eh Ix ltac:(tauto) eq_refl) as (r & Er). destruct (Pts t2 t1 y _ T2 T1 Eh Iy ltac:(tauto) eq_refl) as (r' & Er').
    exists x, y, r, r'. repeat (split; [assumption|]).
    destruct (dedge_points_In Bnum t1 t2 x r T1 T2 Ix Er) as (s' & Es' & _ & J & _). rewrite Ex in Es'. injection Es' as <-.
    destruct (dedge_points_In Bnum t2 t1 y r' T2 T1 Iy Er') as (e' & Ee' & _ & J' & _). rewrite Ey in Ee'. injection Ee' as <-.
    split; [intros ->; apply (proj2 (J v)); eauto|]. split; [exact Er'|]. intros ->; apply (proj2 (J' w)); eauto. }
  destruct (Side a b c d p Hs He Nz Big C) as (x & y & r & r' & Ix & Iy & Ex & Ey & Er & Nr & Er' & Nr').
  destruct (hits_count Bnum t1 t2 hs x y r r' Eh Ix Iy Er Nr Er' Nr') as [Two Uniq].
  assert (La : va = []) by (destruct va; [reflexivity|cbn in Lk; lia]). assert (Lb : vb = []) by (destruct vb; [reflexivity|cbn in Lk; lia]). subst va vb.
  specialize (Uniq ltac:(lia)).
  assert (One : forall q, corner2 (map dp t1) (map dp t2) q -> q = p).
  { intros q Cq. destruct (corner_kinds q Cq) as [(v & I & _ & H)|[(v & I & _ & H)|(a' & b' & c' & d' & Hs' & He' & Nz' & Big' & C')]].
    - exfalso. apply (proj2 (dvertices_inside_In Bnum t1 t2 [] Ea v) (conj I H)).
    - exfalso. apply (proj2 (dvertices_inside_In Bnum t2 t1 [] Eb v) (conj I H)).
    - destruct (Side a' b' c' d' q Hs' He' Nz' Big' C') as (x' & y' & u & u' & Ix' & Iy' & Ex' & Ey' & Eu & Nu & Eu' & Nu').
      destruct (Uniq x' u Ix' Nu) as [U1 _]. destruct (Uniq y' u' Iy' Nu') as [_ U2]. specialize (U1 Eu). specialize (U2 Eu'). subst x' y'.
      rewrite Ex in Ex'. injection Ex' as <- <-. rewrite Ey in Ey'. injection Ey' as <- <-.
      destruct C as [P1 P2], C' as [Q1 Q2]. cbn [map] in *.
      apply (lines_meet_once (dp a) (dp b) (dp c) (dp d) q p Nz); apply hull_near0; apply (near_weaken (- h1)); try lra; assumption. }
  exists 1, 0, (dot3 (1, 0, 0) p). split; [intros Z; injection Z; lra|]. intros q H1 H2. f_equal.
  destruct (corners_span q H1 H2) as (qs & Fq & Hq). rewrite Forall_forall in Fq.
  assert (Hp : hull [p] q) by (apply (hull_trans qs _ _ Hq); intros z Iz; rewrite (One z (Fq z Iz)); apply hull_mem; left; reflexivity).
  clear - Hp. destruct Hp as (ws & (L & S & E) & _). destruct ws as [|w [|]]; try discriminate L. cbn [Rsum] in S. assert (w = 1) by lra. subst w. rewrite E. destruct p as [[? ?] ?]. unfold o3. cbn. apply f_equal2; [apply f_equal2|]; ring.
Qed.
End Neat.

(** The triangulation of the collected points. *)
Lemma dtri_covers_N N h delaunay p o q : triangulates N delaunay -> goods 6 p -> level h p -> triangulation_points N delaunay p = Ok o -> hull (map dp p) q ->
  (exists r, o = Some r /\ dregion r q) \/ on_line (map dp p).
Proof.
  intros Tr G Lv H Hq. unfold triangulation_points in H. apply bind_Ok_inv in H as (qs & Eq & H). change (plane_points N p = Ok qs) in Eq. specialize (Tr p qs G Eq).
  destruct (delaunay qs) as [l|] eqn:Ed; [destruct Tr as [Tr|OL]; [left|right; exact OL]|right; exact Tr]. apply bind_Ok_inv in H as (o' & Eo & H).
  set (es := map (fun v => firstn 2 (dppoint v)) p) in Tr.
  assert (M : map pt2 es = map fl (map dp p)) by (unfold es; rewrite !map_map; apply map_ext; intros v; apply fl_dp).
  destruct (Tr (fl q)) as (i & j & k & a & b & c & Il & Na & Nb & Nc & NF & Hh); [rewrite M; apply hull_fl; exact Hq|].
  destruct (dkeep_spec p l o' G Eo) as (ts & F2 & _ & I).
  assert (Get : forall x y, nth_error es x = Some y -> exists v, nth_error p x = Some v /\ pt2 y = fl (dp v)).
  { intros x y Nx. unfold es in Nx. rewrite nth_error_map in Nx. destruct (nth_error p x) as [v|]; [|discriminate]. injection Nx as <-. exists v. split; [reflexivity|apply fl_dp]. }
  destruct (Get i a Na) as (va & Va & Ea). destruct (Get j b Nb) as (vb & Vb & Eb). destruct (Get k c Nc) as (vc & Vc & Ec).
  assert (T : exists t, In t ts /\ corners_at p (i, j, k) t).
  { clear - F2 Il. induction F2 as [|s t l ts H _ IH]; [destruct Il|]. destruct Il as [->|Il]; [exists t; cbn; tauto|]. destruct (IH Il) as (t' & It & V). exists t'. cbn; tauto. }
  destruct T as (t & It & (a' & b' & c' & Pa & Pb & Pc & ->)).
  rewrite Va in Pa. rewrite Vb in Pb. rewrite Vc in Pc. injection Pa as <-. injection Pb as <-. injection Pc as <-.
  cbn [map] in Hh. rewrite Ea, Eb, Ec in *.
  assert (Io : In [va; vb; vc] o') by (apply I; split; [exact It|]; apply parea_flat; rewrite <- flat3_fl; exact NF).
  exists o'. split; [destruct o'; [destruct Io|injection H as <-; reflexivity]|]. exists [va; vb; vc]. split; [exact Io|].
  apply (hull_unfl h).
  - apply level_plan. apply (level_incl _ _ _ Lv). apply nth_error_In in Va, Vb, Vc. intros x [<-|[<-|[<-|[]]]]; assumption.
  - apply (hull_height h (map dp p)); [apply level_plan; exact Lv|exact Hq].
  - exact Hh.
Qed.
End Lib.
