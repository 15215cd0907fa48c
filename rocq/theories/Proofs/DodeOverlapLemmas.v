(** From the geometry of triangles to the intersection of dodecagonal objects. *)
From Coq Require Import Reals List ZArith Lia Lra Bool Classical.
From Verif Require Import Base.Res Model.Tau Model.Arr Model.Num Model.DodeMath1 Model.DodeNumeric Model.DodeArea Model.IcoIntersect Model.DodeIntersect
  Spec.Value Spec.RVec Spec.Shape Spec.DodeSpec Spec.Sets Spec.Space Spec.Tetra Spec.Overlap Spec.Plane
  Proofs.ResLemmas Proofs.ScalarLemmas Proofs.ValueLemmas Proofs.VectorLemmas Proofs.RVecLemmas Proofs.DedupLemmas Proofs.Irrational Proofs.NumLemmas
  Proofs.IntersectLemmas Proofs.ObjLemmas Proofs.DodeProj Proofs.DodeDedupLemmas Proofs.PlaneLemmas Proofs.Polytope Proofs.Polygon
  Proofs.OverlapLemmas Proofs.DodeIntersectLemmas Proofs.DodeObjLemmas Proofs.P_DodeIntersect.
Import ListNotations.
Local Open Scope R_scope.

Notation small5 := (1/2000000).
Notation admE t1 t2 v := (admR Rnum t1 t2 v).

Lemma dp_coords v : exists x y z, dppoint v = [x; y; z] /\ perp_plane (vals SIN v) = [x; y] /\ dp v = (x, y, z).
Proof. unfold dp, dppoint, perp_plane, dperp, matvec, dperp_rows. cbn [map]. do 3 eexists. split; [reflexivity|]. split; reflexivity. Qed.

Lemma parea_flat a b c : parea [a; b; c] <> 0 <-> ~ flat3 (dp a) (dp b) (dp c).
Proof.
  unfold parea, flat3. cbn [map]. destruct (dp_coords a) as (a0 & a1 & a2 & _ & -> & ->). destruct (dp_coords b) as (b0 & b1 & b2 & _ & -> & ->).
  destruct (dp_coords c) as (c0 & c1 & c2 & _ & -> & ->). cbn [triarea sub3 det2]. set (x := (b0 - a0) * _ - _). split; intros H E; apply H.
  - rewrite E, Rabs_R0. field.
  - destruct (Req_dec x 0) as [|N]; [assumption|]. apply Rabs_no_R0 in N. lra.
Qed.

Lemma level_plan h t : level h t -> plan h (map dp t).
Proof. unfold level, plan. rewrite Forall_map. auto. Qed.
Lemma level_subseq h s t : subseq s t -> level h t -> level h s.
Proof. intros S L. apply (level_incl h t); [exact L|]. exact (subseq_incl _ _ S). Qed.
Lemma level_app h s t : level h s -> level h t -> level h (s ++ t).
Proof. unfold level. rewrite Forall_app. auto. Qed.

Lemma dinside_near h v t : good 6 v -> tri1 t -> level h (v :: t) -> inside_outside_triangle_tau Rnum v t = Ok true -> near small5 (map dp t) (dp v).
Proof.
  intros Gv [L G] Lv H. destruct t as [|a [|b [|c [|]]]]; try discriminate L.
  apply (L_C70_sharp h v a b c); [constructor; assumption|exact Lv|exact H].
Qed.
Lemma dinside_hull h v t : good 6 v -> tri1 t -> level h (v :: t) -> parea t <> 0 -> hull (map dp t) (dp v) -> inside_outside_triangle_tau Rnum v t = Ok true.
Proof.
  intros Gv [L G] Lv V H. destruct t as [|a [|b [|c [|]]]]; try discriminate L.
  apply (L_C70_closed_triangle h v a b c); [constructor; assumption|exact Lv|apply parea_flat; exact V|exact H].
Qed.

(** Two segments of one plane. *)
Lemma dmeet_plane h s e : goods 6 s -> goods 6 e -> length s = 2%nat -> length e = 2%nat -> level h (s ++ e) ->
  exists a b c d o, s = [a; b] /\ e = [c; d] /\ dintersection_two_segment Rnum s e = Ok o /\
  let k := det2 (sub3 (dp b) (dp a)) (sub3 (dp d) (dp c)) in
  match o with
  | Some v => 1/1000000 <= k * k /\ hull (map dp s) (dp v) /\ hull (map dp e) (dp v) /\ forall p, hull (map dp s) p -> hull (map dp e) p -> p = dp v
  | None => k * k < 1/1000000 \/ forall p, ~ (hull (map dp s) p /\ hull (map dp e) p)
  end.
Proof.
  intros Gs Ge Ls Le Lv. destruct s as [|a [|b [|]]]; try discriminate Ls. destruct e as [|c [|d [|]]]; try discriminate Le.
  assert (G4 : goods 6 [a; b; c; d]) by (apply (Forall_app (good 6) [a; b] [c; d]); split; assumption).
  destruct (L_C71_exact h a b c d G4 Lv) as (o & Eo & Ho). exists a, b, c, d, o. split; [reflexivity|]. split; [reflexivity|]. split; [exact Eo|].
  cbv zeta in *. destruct o as [v|]; [|exact Ho]. tauto.
Qed.
Lemma dmeet_hull h s e v : goods 6 s -> goods 6 e -> length s = 2%nat -> length e = 2%nat -> level h (s ++ e) ->
  dintersection_two_segment Rnum s e = Ok (Some v) -> hull (map dp s) (dp v) /\ hull (map dp e) (dp v) /\ forall p, hull (map dp s) p -> hull (map dp e) p -> p = dp v.
Proof.
  intros Gs Ge Ls Le Lv H. destruct (dmeet_plane h s e Gs Ge Ls Le Lv) as (a & b & c & d & o & _ & _ & Eo & Ho). rewrite H in Eo. injection Eo as <-. cbv zeta in Ho. tauto.
Qed.
Lemma det2_swap u v : det2 v u = - det2 u v.
Proof. p3 u; p3 v. cbn. ring. Qed.
Lemma dmeet_sym h s e v : goods 6 s -> goods 6 e -> length s = 2%nat -> length e = 2%nat -> level h (s ++ e) ->
  dintersection_two_segment Rnum s e = Ok (Some v) -> exists v', dintersection_two_segment Rnum e s = Ok (Some v').
Proof.
  intros Gs Ge Ls Le Lv H. destruct (dmeet_plane h s e Gs Ge Ls Le Lv) as (a & b & c & d & o & -> & -> & Eo & Ho). rewrite H in Eo. injection Eo as <-.
  assert (Lv' : level h ([c; d] ++ [a; b])) by (apply level_app; apply (level_incl _ _ _ Lv); intros x I; apply in_or_app; tauto).
  destruct (dmeet_plane h [c; d] [a; b] Ge Gs Le Ls Lv') as (c' & d' & a' & b' & o & E1 & E2 & Eo & Ho'). injection E1 as <- <-. injection E2 as <- <-.
  cbv zeta in *. destruct o as [v'|]; [eauto|]. exfalso. destruct Ho as (K & H1 & H2 & _). destruct Ho' as [K'|N]; [|exact (N (dp v) (conj H2 H1))].
  rewrite det2_swap in K'. lra.
Qed.

Lemma hull_subseq s t p : subseq s t -> hull (map dp s) p -> hull (map dp t) p.
Proof. intros S H. apply hull_near0 in H. apply hull_near0. apply (near_subseq 0 (map dp s)); [lra|apply subseq_map; exact S|exact H]. Qed.

(** Points found for a pair are close to both triangles. *)
Lemma dadmissible_near h t1 t2 v : tri1 t1 -> tri1 t2 -> level h (t1 ++ t2) ->
  admE t1 t2 v -> near small5 (map dp t1) (dp v) /\ near small5 (map dp t2) (dp v).
Proof.
  intros [L1 G1] [L2 G2] Lv [[I H]|[[I H]|[(s & e & [Ss Ls] & [Se Le] & H)|(s & e & [Ss Ls] & [Se Le] & H)]]].
  - split; [apply (near_weaken 0); [lra|]; apply mem_near, in_map, I|]. apply (dinside_near h); [exact (goods_in 6 _ _ G1 I)|split; assumption| |exact H].
    apply (level_incl _ _ _ Lv). intros x [<-|X]; apply in_or_app; tauto.
  - split; [|apply (near_weaken 0); [lra|]; apply mem_near, in_map, I]. apply (dinside_near h); [exact (goods_in 6 _ _ G2 I)|split; assumption| |exact H].
    apply (level_incl _ _ _ Lv). intros x [<-|X]; apply in_or_app; tauto.
  - destruct (dmeet_hull h s e v) as (A & B & _); try assumption; [exact (subseq_goods _ _ Ss G1)|exact (subseq_goods _ _ Se G2)| |].
    { apply level_app; apply (level_incl _ _ _ Lv); intros x X; apply in_or_app; [left; exact (subseq_incl _ _ Ss x X)|right; exact (subseq_incl _ _ Se x X)]. }
    split; apply (near_weaken 0); try lra; apply hull_near0; [exact (hull_subseq _ _ _ Ss A)|exact (hull_subseq _ _ _ Se B)].
  - destruct (dmeet_hull h s e v) as (A & B & _); try assumption; [exact (subseq_goods _ _ Ss G2)|exact (subseq_goods _ _ Se G1)| |].
    { apply level_app; apply (level_incl _ _ _ Lv); intros x X; apply in_or_app; [right; exact (subseq_incl _ _ Ss x X)|left; exact (subseq_incl _ _ Se x X)]. }
    split; apply (near_weaken 0); try lra; apply hull_near0; [exact (hull_subseq _ _ _ Se B)|exact (hull_subseq _ _ _ Ss A)].
Qed.

(** Corners of the overlap are found exactly. *)
Lemma dcrossing_found h t1 t2 p : tri1 t1 -> tri1 t2 -> level h (t1 ++ t2) ->
  decided_pair2 t1 t2 -> crossing2 (map dp t1) (map dp t2) p ->
  exists s e v, edge_of s t1 /\ edge_of e t2 /\ dintersection_two_segment Rnum s e = Ok (Some v) /\ dp v = p.
Proof.
  intros [L1 G1] [L2 G2] Lv D (u & v & x & y & Ss & Se & K & H1 & H2).
  apply subseq_map_inv in Ss as (s & Ss & Es). apply subseq_map_inv in Se as (e & Se & Ee).
  assert (Ls : length s = 2%nat) by (rewrite <- (map_length dp), Es; reflexivity).
  assert (Le : length e = 2%nat) by (rewrite <- (map_length dp), Ee; reflexivity).
  assert (Lse : level h (s ++ e)).
  { apply level_app; apply (level_incl _ _ _ Lv); intros z Z; apply in_or_app; [left; exact (subseq_incl _ _ Ss z Z)|right; exact (subseq_incl _ _ Se z Z)]. }
  destruct (dmeet_plane h s e (subseq_goods _ _ Ss G1) (subseq_goods _ _ Se G2) Ls Le Lse) as (a & b & c & d & o & Ea & Eb & Eo & Ho).
  assert (Hd := D s e (conj Ss Ls) (conj Se Le) a b c d Ea Eb). cbv zeta in *. rewrite <- Es in H1. rewrite <- Ee in H2.
  assert (K' : det2 (sub3 (dp b) (dp a)) (sub3 (dp d) (dp c)) <> 0) by (subst s e; cbn [map] in *; injection Es as <- <-; injection Ee as <- <-; exact K).
  destruct o as [w|].
  - destruct Ho as (_ & _ & _ & U). exists s, e, w. split; [split; assumption|]. split; [split; assumption|]. split; [exact Eo|]. symmetry. apply U; assumption.
  - exfalso. destruct Ho as [B|N]; [destruct Hd as [Z|Big]; [contradiction|lra]|exact (N p (conj H1 H2))].
Qed.

Lemma dcorner_admissible h t1 t2 p : tri1 t1 -> tri1 t2 -> level h (t1 ++ t2) -> parea t1 <> 0 -> parea t2 <> 0 ->
  decided_pair2 t1 t2 -> corner2 (map dp t1) (map dp t2) p -> exists v, admE t1 t2 v /\ dp v = p.
Proof.
  intros T1 T2 Lv V1 V2 D [[I H]|[[I H]|C]].
  - apply in_map_iff in I as (v & <- & I). exists v. split; [|reflexivity]. left. split; [exact I|]. apply (dinside_hull h); try assumption; [exact (goods_in 6 _ _ (proj2 T1) I)|].
    apply (level_incl _ _ _ Lv). intros x [<-|X]; apply in_or_app; tauto.
  - apply in_map_iff in I as (v & <- & I). exists v. split; [|reflexivity]. right; left. split; [exact I|]. apply (dinside_hull h); try assumption; [exact (goods_in 6 _ _ (proj2 T2) I)|].
    apply (level_incl _ _ _ Lv). intros x [<-|X]; apply in_or_app; tauto.
  - destruct (dcrossing_found h t1 t2 p T1 T2 Lv D C) as (s & e & v & Es & Ee & M & E). exists v. split; [|exact E]. right; right; left. eauto.
Qed.

Lemma dcommon_span h t1 t2 p : tri1 t1 -> tri1 t2 -> level h (t1 ++ t2) -> parea t1 <> 0 -> parea t2 <> 0 ->
  decided_pair2 t1 t2 -> hull (map dp t1) p -> hull (map dp t2) p ->
  forall ps, (forall v, admE t1 t2 v -> In (dppoint v) (map dppoint ps)) -> hull (map dp ps) p.
Proof.
  intros T1 T2 Lv V1 V2 D H1 H2 ps A.
  assert (P1 : plan h (map dp t1)) by (apply level_plan, (level_incl _ _ _ Lv), incl_appl, incl_refl).
  assert (P2 : plan h (map dp t2)) by (apply level_plan, (level_incl _ _ _ Lv), incl_appr, incl_refl).
  assert (S : exists qs, Forall (corner2 (map dp t1) (map dp t2)) qs /\ hull qs p).
  { clear D A Lv. destruct T1 as [L1 _], T2 as [L2 _]. destruct t1 as [|a [|b [|c [|]]]]; try discriminate L1. destruct t2 as [|a' [|b' [|c' [|]]]]; try discriminate L2.
    apply (overlap_span2 h (dp a) (dp b) (dp c) (dp a') (dp b') (dp c') p); first [assumption|apply parea_flat; assumption]. }
  destruct S as (qs & Fq & Hq).
  apply (hull_trans qs _ _ Hq). intros q Iq. rewrite Forall_forall in Fq. specialize (Fq q Iq).
  destruct (dcorner_admissible h t1 t2 q T1 T2 Lv V1 V2 D Fq) as (v & Av & <-).
  specialize (A v Av). apply in_map_iff in A as (u & Eu & Iu). apply hull_mem. rewrite <- (dp_ppoint u v Eu). apply in_map. exact Iu.
Qed.

Lemma dclass_not_0 h t1 t2 p : tri1 t1 -> tri1 t2 -> level h (t1 ++ t2) -> parea t1 <> 0 -> parea t2 <> 0 ->
  decided_pair2 t1 t2 -> hull (map dp t1) p -> hull (map dp t2) p ->
  exists k, check_intersection_two_triangles Rnum t1 t2 = Ok k /\ (k = 1 \/ k = 2 \/ k = 3)%Z.
Proof.
  intros T1 T2 Lv V1 V2 D H1 H2.
  assert (P1 : plan h (map dp t1)) by (apply level_plan, (level_incl _ _ _ Lv), incl_appl, incl_refl).
  assert (P2 : plan h (map dp t2)) by (apply level_plan, (level_incl _ _ _ Lv), incl_appr, incl_refl).
  assert (X : (forall v, In v (map dp t1) -> hull (map dp t2) v) \/ (forall v, In v (map dp t2) -> hull (map dp t1) v) \/
    (exists q, crossing2 (map dp t1) (map dp t2) q)).
  { clear D Lv. destruct T1 as [L1 _], T2 as [L2 _]. destruct t1 as [|a [|b [|c [|]]]]; try discriminate L1. destruct t2 as [|a' [|b' [|c' [|]]]]; try discriminate L2.
    apply (overlap_cases2 h (dp a) (dp b) (dp c) (dp a') (dp b') (dp c') p); first [assumption|apply parea_flat; assumption]. }
  destruct (dclassify_spec Rnum t1 t2 (goods_l6 _ (proj2 T1)) (goods_l6 _ (proj2 T2)) (proj1 T1) (proj1 T2)) as [[_ E]|[(_ & _ & E)|[(_ & _ & _ & E)|(N1 & N2 & N3 & _)]]]; [eauto..|].
  exfalso. destruct X as [A|[A|(q & C)]].
  - apply N1. intros v I. apply (dinside_hull h); [exact (goods_in 6 _ _ (proj2 T1) I)|exact T2| |exact V2|apply A, in_map, I].
    apply (level_incl _ _ _ Lv). intros x [<-|Y]; apply in_or_app; tauto.
  - apply N2. intros v I. apply (dinside_hull h); [exact (goods_in 6 _ _ (proj2 T2) I)|exact T1| |exact V1|apply A, in_map, I].
    apply (level_incl _ _ _ Lv). intros x [<-|Y]; apply in_or_app; tauto.
  - apply N3. left. destruct (dcrossing_found h t1 t2 q T1 T2 Lv D C) as (s & e & v & Es & Ee & M & _). exists s, e. split; [exact Es|]. split; [exact Ee|].
    destruct (its_good Rnum s e (Some v) (subseq_goods _ _ (proj1 Es) (proj2 T1)) (subseq_goods _ _ (proj1 Ee) (proj2 T2)) (proj2 Es) (proj2 Ee) M) as [_ Ck]. exact Ck.
Qed.

(** In one plane and in exact arithmetic nothing raises. *)
Lemma dmeet_ok h s e : goods 6 s -> goods 6 e -> length s = 2%nat -> length e = 2%nat -> level h (s ++ e) -> exists o, dintersection_two_segment Rnum s e = Ok o.
Proof. intros Gs Ge Ls Le Lv. destruct (dmeet_plane h s e Gs Ge Ls Le Lv) as (a & b & c & d & o & _ & _ & Eo & _). eauto. Qed.
Lemma dedge_points_ok h t1 t2 c : tri1 t1 -> tri1 t2 -> level h (t1 ++ t2) -> In c tedge_ix -> exists r, dedge_points Rnum t1 t2 c = Ok r.
Proof.
  intros [L1 G1] [L2 G2] Lv Hc. unfold dedge_points. destruct (tedge_pick_ok t1 c L1 Hc) as (s & -> & Hs). rewrite pick3_id by exact L2. cbn [bind].
  unfold dintersection_segment_surface.
  destruct (dsegsur_spec Rnum s t2 (edge_l6 _ _ Hs (goods_l6 _ G1)) (goods_l6 _ G2) (proj2 Hs) L2) as (b & -> & _). cbn [bind]. destruct b; [|eauto].
  assert (Ke : forall cs, incl cs tedge_ix -> exists r, segment_edges Rnum s t2 cs = Ok r).
  { clear c Hc. induction cs as [|c cs IH]; intros Hi; cbn [segment_edges]; [eauto|].
    destruct (tedge_pick_ok t2 c L2) as (e & -> & He); [apply Hi; left; reflexivity|]. cbn [bind].
    destruct (dmeet_ok h s e (subseq_goods _ _ (proj1 Hs) G1) (subseq_goods _ _ (proj1 He) G2) (proj2 Hs) (proj2 He)) as (o & ->).
    { apply level_app; apply (level_incl _ _ _ Lv); intros z Z; apply in_or_app; [left; exact (subseq_incl _ _ (proj1 Hs) z Z)|right; exact (subseq_incl _ _ (proj1 He) z Z)]. }
    cbn [bind]. destruct IH as (r & ->); [intros z Z; apply Hi; right; exact Z|]. cbn [bind]. eauto. }
  apply Ke, incl_refl.
Qed.
Lemma level_swap h t1 t2 : level h (t1 ++ t2) -> level h (t2 ++ t1).
Proof. intros L. apply (level_incl _ _ _ L). intros x I. apply in_app_iff in I. apply in_or_app. tauto. Qed.
Lemma dedge_hits_ok h t1 t2 : tri1 t1 -> tri1 t2 -> level h (t1 ++ t2) -> exists r, dedge_hits Rnum t1 t2 tedge_ix = Ok r.
Proof.
  intros T1 T2 Lv. assert (K : forall cs, incl cs tedge_ix -> exists r, dedge_hits Rnum t1 t2 cs = Ok r); [|apply K, incl_refl].
  induction cs as [|c cs IH]; intros Hi; cbn [dedge_hits]; [eauto|]. assert (Hc : In c tedge_ix) by (apply Hi; left; reflexivity).
  destruct (dedge_points_ok h t1 t2 c T1 T2 Lv Hc) as (r1 & ->). destruct (dedge_points_ok h t2 t1 c T2 T1 (level_swap _ _ _ Lv) Hc) as (r2 & ->). cbn [bind].
  destruct IH as (r & ->); [intros z Z; apply Hi; right; exact Z|]. cbn [bind]. eauto.
Qed.

(** The edges of t1 that meet t2, and conversely; how many arrays of points there are. *)
Lemma hits_count N t1 t2 h c1 c2 p1 p2 : dedge_hits N t1 t2 tedge_ix = Ok h -> In c1 tedge_ix -> In c2 tedge_ix ->
  dedge_points N t1 t2 c1 = Ok p1 -> p1 <> [] -> dedge_points N t2 t1 c2 = Ok p2 -> p2 <> [] ->
  (2 <= length h)%nat /\ ((length h < 3)%nat -> forall c r, In c tedge_ix -> r <> [] ->
     (dedge_points N t1 t2 c = Ok r -> c = c1) /\ (dedge_points N t2 t1 c = Ok r -> c = c2)).
Proof.
  intros H I1 I2 E1 N1 E2 N2. unfold tedge_ix in H. cbn [dedge_hits] in H.
  apply bind_Ok_inv in H as (a0 & A0 & H). apply bind_Ok_inv in H as (b0 & B0 & H). apply bind_Ok_inv in H as (r0 & R0 & H). injection H as <-.
  apply bind_Ok_inv in R0 as (a1 & A1 & H). apply bind_Ok_inv in H as (b1 & B1 & H). apply bind_Ok_inv in H as (r1 & R1 & H). injection H as <-.
  apply bind_Ok_inv in R1 as (a2 & A2 & H). apply bind_Ok_inv in H as (b2 & B2 & H). injection H as <-. rewrite !app_nil_r.
  assert (Hit : forall p : vecs, p <> [] -> length (hit p) = 1%nat) by (intros [|] X; [congruence|reflexivity]).
  rewrite !app_length.
  assert (Le : forall p : vecs, (0 <= length (hit p))%nat) by (intros; lia).
  cbn [In tedge_ix] in I1, I2.
  destruct I1 as [<-|[<-|[<-|[]]]]; [rewrite A0 in E1; injection E1 as <-|rewrite A1 in E1; injection E1 as <-|rewrite A2 in E1; injection E1 as <-];
  (destruct I2 as [<-|[<-|[<-|[]]]]; [rewrite B0 in E2; injection E2 as <-|rewrite B1 in E2; injection E2 as <-|rewrite B2 in E2; injection E2 as <-]);
  (assert (X1 := Hit _ N1); assert (X2 := Hit _ N2); split; [lia|];
   intros Lt c r Ic Nr; cbn [In tedge_ix] in Ic; destruct Ic as [<-|[<-|[<-|[]]]];
   split; intros E; try reflexivity; exfalso; 
   rewrite ?A0, ?A1, ?A2, ?B0, ?B1, ?B2 in E; injection E as <-; assert (X3 := Hit _ Nr); lia).
Qed.

(** If fewer than three arrays of points are found, all points coincide. *)
Lemma few_hits h t1 t2 k p v0 : tri1 t1 -> tri1 t2 -> level h (t1 ++ t2) -> dcollect Rnum t1 t2 = Ok (k, p) -> (k < 3)%nat ->
  In v0 p -> forall v, admE t1 t2 v -> dp v = dp v0.
Proof.
  intros T1 T2 Lv E Lk I0.
  assert (I := dcollect_In Rnum t1 t2 k p T1 T2 E).
  unfold dcollect in E. apply bind_Ok_inv in E as (hs & Eh & E).
  assert (X : exists a b, dvertices_inside Rnum t1 t2 = Ok a /\ dvertices_inside Rnum t2 t1 = Ok b /\ k = (length hs + length a + length b)%nat /\ hs <> []).
  { destruct hs; [discriminate|]. apply bind_Ok_inv in E as (a & Ea & E). apply bind_Ok_inv in E as (b & Eb & E). injection E as <- <-. exists a, b.
    split; [exact Ea|]. split; [exact Eb|]. split; [reflexivity|discriminate]. }
  destruct X as (a & b & Ea & Eb & -> & Nh). clear E.
  assert (Sub : forall s t, subseq s t -> (t = t1 \/ t = t2) -> level h s).
  { intros s t Ss Ht. apply (level_incl _ _ _ Lv). intros z Z. apply in_or_app. destruct Ht as [-> | ->]; [left|right]; exact (subseq_incl _ _ Ss z Z). }
  assert (G1 := proj2 T1). assert (G2 := proj2 T2). assert (L1 := proj1 T1). assert (L2 := proj1 T2).
  (* every crossing is a crossing of edges of t1 and t2 found from both sides *)
  assert (Both : forall v, In v (concat hs) -> exists s e c c' r r' v1 v2, In c tedge_ix /\ In c' tedge_ix /\ pick2 t1 c = Ok s /\ pick2 t2 c' = Ok e /\
     dedge_points Rnum t1 t2 c = Ok r /\ r <> [] /\ dedge_points Rnum t2 t1 c' = Ok r' /\ r' <> [] /\
     dintersection_two_segment Rnum s e = Ok (Some v1) /\ dintersection_two_segment Rnum e s = Ok (Some v2) /\ dp v = dp v1).
  { intros v Iv. apply (dedge_hits_In Rnum t1 t2 hs T1 T2 Eh) in Iv.
    assert (Y : exists s e v1 v2, edge_of s t1 /\ edge_of e t2 /\ dintersection_two_segment Rnum s e = Ok (Some v1) /\ dintersection_two_segment Rnum e s = Ok (Some v2) /\ dp v = dp v1).
    { destruct Iv as [(s & e & Hs & He & M)|(e & s & He & Hs & M)].
      - assert (Lse : level h (s ++ e)) by (apply level_app; [apply (Sub s t1 (proj1 Hs)); auto|apply (Sub e t2 (proj1 He)); auto]).
        destruct (dmeet_sym h s e v (subseq_goods _ _ (proj1 Hs) G1) (subseq_goods _ _ (proj1 He) G2) (proj2 Hs) (proj2 He) Lse M) as (v2 & M2).
        exists s, e, v, v2. auto.
      - assert (Lse : level h (e ++ s)) by (apply level_app; [apply (Sub e t2 (proj1 He)); auto|apply (Sub s t1 (proj1 Hs)); auto]).
        destruct (dmeet_sym h e s v (subseq_goods _ _ (proj1 He) G2) (subseq_goods _ _ (proj1 Hs) G1) (proj2 He) (proj2 Hs) Lse M) as (v1 & M1).
        exists s, e, v1, v. split; [exact Hs|]. split; [exact He|]. split; [exact M1|]. split; [exact M|].
        destruct (dmeet_hull h e s v (subseq_goods _ _ (proj1 He) G2) (subseq_goods _ _ (proj1 Hs) G1) (proj2 He) (proj2 Hs) Lse M) as (A & B & _).
        destruct (dmeet_hull h s e v1 (subseq_goods _ _ (proj1 Hs) G1) (subseq_goods _ _ (proj1 He) G2) (proj2 Hs) (proj2 He) (level_swap _ _ _ Lse) M1) as (_ & _ & U).
        apply U; assumption. }
    destruct Y as (s & e & v1 & v2 & Hs & He & M1 & M2 & Ev).
    assert (Hs' := Hs). assert (He' := He). apply (tedge_pick t1 s L1) in Hs' as (c & Hc & Es). apply (tedge_pick t2 e L2) in He' as (c' & Hc' & Ee).
    destruct (dedge_points_ok h t1 t2 c T1 T2 Lv Hc) as (r & Er). destruct (dedge_points_ok h t2 t1 c' T2 T1 (level_swap _ _ _ Lv) Hc') as (r' & Er').
    exists s, e, c, c', r, r', v1, v2. repeat (split; [assumption|]).
    destruct (dedge_points_In Rnum t1 t2 c r T1 T2 Hc Er) as (s' & Es' & _ & J & _). rewrite Es in Es'. injection Es' as <-.
    destruct (dedge_points_In Rnum t2 t1 c' r' T2 T1 Hc' Er') as (e' & Ee' & _ & J' & _). rewrite Ee in Ee'. injection Ee' as <-.
    split; [intros ->; apply (proj2 (J v1)); eauto|]. split; [exact Er'|]. split; [intros ->; apply (proj2 (J' v2)); eauto|]. auto. }
  assert (Pt : exists v, In v (concat hs)).
  { destruct hs as [|q hs]; [congruence|]. pose proof (Forall_inv (hits_nonempty _ _ _ _ _ Eh)) as Nq. destruct q as [|v q]; [congruence|]. exists v. left. reflexivity. }
  destruct Pt as (w & Iw). destruct (Both w Iw) as (s & e & c & c' & r & r' & w1 & w2 & Hc & Hc' & Es & Ee & Er & Nr & Er' & Nr' & M1 & M2 & Ew).
  destruct (hits_count Rnum t1 t2 hs c c' r r' Eh Hc Hc' Er Nr Er' Nr') as [Two Uniq].
  assert (La : a = []) by (destruct a; [reflexivity|cbn in Lk; lia]). assert (Lb : b = []) by (destruct b; [reflexivity|cbn in Lk; lia]). subst a b.
  specialize (Uniq ltac:(lia)).
  assert (One : forall v, admE t1 t2 v -> dp v = dp w1).
  { intros v Av.
    assert (Iv : In v (concat hs)).
    { destruct Av as [[Iv Hv]|[[Iv Hv]|C]].
      - exfalso. apply (proj2 (dvertices_inside_In Rnum t1 t2 [] Ea v) (conj Iv Hv)).
      - exfalso. apply (proj2 (dvertices_inside_In Rnum t2 t1 [] Eb v) (conj Iv Hv)).
      - apply (dedge_hits_In Rnum t1 t2 hs T1 T2 Eh). exact C. }
    destruct (Both v Iv) as (s' & e' & d & d' & q & q' & v1 & v2 & Hd & Hd' & Es' & Ee' & Eq & Nq & Eq' & Nq' & M1' & M2' & Ev).
    destruct (Uniq d q Hd Nq) as [U1 _]. destruct (Uniq d' q' Hd' Nq') as [_ U2]. specialize (U1 Eq). specialize (U2 Eq'). subst d d'.
    rewrite Es in Es'. injection Es' as <-. rewrite Ee in Ee'. injection Ee' as <-. rewrite M1 in M1'. injection M1' as <-. exact Ev. }
  intros v Av. rewrite (One v Av). symmetry. apply One. apply I. exact I0.
Qed.

(** Few points lie on a line, and so does their hull. *)
Lemma few_on_line ps : (length ps < 3)%nat -> on_line ps.
Proof.
  intros L. destruct ps as [|a [|b [|]]]; [| | |cbn in L; lia].
  - exists 1, 0, 0. split; [intros E; injection E; lra|constructor].
  - exists 1, 0, (dot3 (1, 0, 0) a). split; [intros E; injection E; lra|]. repeat constructor.
  - destruct a as [[x y] z], b as [[u v] w]. destruct (Req_dec (u - x) 0) as [Z|Z]; [destruct (Req_dec (v - y) 0) as [Z'|Z']|].
    + exists 1, 0, (dot3 (1, 0, 0) (x, y, z)). split; [intros E; injection E; lra|]. repeat constructor. cbn. lra.
    + exists (v - y), (- (u - x)), (dot3 (v - y, - (u - x), 0) (x, y, z)). split; [intros E; injection E; lra|]. repeat constructor. cbn. ring.
    + exists (v - y), (- (u - x)), (dot3 (v - y, - (u - x), 0) (x, y, z)). split; [intros E; injection E; lra|]. repeat constructor. cbn. ring.
Qed.
Lemma same_on_line x ps : Forall (eq x) ps -> on_line ps.
Proof.
  intros H. exists 1, 0, (dot3 (1, 0, 0) x). split; [intros E; injection E; lra|]. eapply Forall_impl; [|exact H]. intros p <-. reflexivity.
Qed.
Lemma on_line_thin t1 t2 ps : on_line (map dp ps) -> (forall q, hull (map dp t1) q -> hull (map dp t2) q -> hull (map dp ps) q) -> thin2 t1 t2.
Proof.
  intros (m & n & d & Nz & H) S. exists m, n, d. split; [exact Nz|]. intros q H1 H2.
  apply (convex_hull (fun p => dot3 (m, n, 0) p = d) (map dp ps) q); [|exact H|apply S; assumption].
  intros a b k Ea Eb _. unfold mix. p3 a; p3 b. cbn in *. 
  match goal with |- ?g = _ => transitivity (k * d + (1 - k) * d); [rewrite <- Ea at 1; rewrite <- Eb; ring|ring] end.
Qed.

(** The triangulation: the points handed over are the projections to the plane. *)
Definition fl (p : R3) : R3 := let '(x, y, _) := p in (x, y, 0).
Lemma fl_dp v : pt2 (firstn 2 (dppoint v)) = fl (dp v).
Proof. destruct (dp_coords v) as (x & y & z & -> & _ & ->). reflexivity. Qed.
Lemma comb_fl ws ps : comb ws (map fl ps) = fl (comb ws ps).
Proof.
  revert ws. induction ps as [|p ps IH]; intros [|w ws]; try reflexivity. cbn [map]. rewrite !comb_cons, IH.
  destruct (comb ws ps) as [[x y] z]. p3 p. cbn. eq3; ring.
Qed.
Lemma hull_fl ps p : hull ps p -> hull (map fl ps) (fl p).
Proof. intros (ws & (L & S & E) & P). exists ws. split; [|exact P]. split; [rewrite map_length; exact L|]. split; [exact S|]. rewrite comb_fl, <- E. reflexivity. Qed.
Lemma hull_unfl h ps p : plan h ps -> height p = h -> hull (map fl ps) (fl p) -> hull ps p.
Proof.
  intros Pl Hp (ws & (L & S & E) & P). rewrite map_length in L. exists ws. split; [|exact P]. split; [exact L|]. split; [exact S|].
  assert (Hc : height (comb ws ps) = h) by (apply (bary_height h ws ps); [split; [exact L|split; [exact S|reflexivity]]|exact Pl]).
  rewrite comb_fl in E. destruct p as [[x y] z], (comb ws ps) as [[u v] w]. unfold height in *. cbn in *. injection E as <- <-. congruence.
Qed.
Lemma flat3_fl a b c : flat3 (fl a) (fl b) (fl c) <-> flat3 a b c.
Proof. p3 a; p3 b; p3 c. unfold flat3. cbn. tauto. Qed.
Lemma dpoints_R p q : goods 6 p -> mapM (fun v => bind (dprojection3 v) (fun w => Ok (take2 Rnum (dnumerical_vector Rnum w)))) p = Ok q ->
  q = map (fun v => firstn 2 (dppoint v)) p.
Proof.
  intros G. revert q. induction G as [|v p Gv G IH]; intros q Eq; cbn [mapM] in Eq; [injection Eq as <-; reflexivity|].
  apply bind_Ok_inv in Eq as (x & Ex & Eq). apply bind_Ok_inv in Eq as (y & Ey & Eq). injection Eq as <-. cbn [map]. f_equal; [|apply IH; exact Ey].
  apply bind_Ok_inv in Ex as (w & Ew & Ex). injection Ex as <-. unfold take2. rewrite dnumerical_vector_R.
  destruct (wp_elim _ _ (dprojection3_spec v Gv)) as (w' & Ew' & _ & V). rewrite Ew in Ew'. injection Ew' as <-. unfold dppoint. rewrite <- V. reflexivity.
Qed.
Lemma dtri_covers h delaunay p o q : goods 6 p -> level h p -> (forall q l, delaunay q = Some l -> covers2 q l) ->
  triangulation_points Rnum delaunay p = Ok o -> hull (map dp p) q ->
  (exists r, o = Some r /\ dregion r q) \/ (exists qs, delaunay qs = None /\ map pt2 qs = map fl (map dp p)).
Proof.
  intros G Lv Cov H Hq. unfold triangulation_points in H.
  apply bind_Ok_inv in H as (qs & Eq & H). apply dpoints_R in Eq; [|exact G].
  assert (M : map pt2 qs = map fl (map dp p)) by (rewrite Eq, !map_map; apply map_ext; intros v; apply fl_dp).
  destruct (delaunay qs) as [l|] eqn:Ed; [left|right; eauto].
  apply bind_Ok_inv in H as (o' & Eo & H). 
  destruct (Cov qs l Ed (fl q)) as (i & j & k & a & b & c & Il & Na & Nb & Nc & NF & Hh); [rewrite M; apply hull_fl; exact Hq|].
  destruct (dkeep_spec p l o' G Eo) as (ts & F2 & _ & I).
  assert (Get : forall x y, nth_error qs x = Some y -> exists v, nth_error p x = Some v /\ pt2 y = fl (dp v)).
  { intros x y Nx. rewrite Eq, nth_error_map in Nx. destruct (nth_error p x) as [v|]; [|discriminate]. injection Nx as <-. exists v. split; [reflexivity|apply fl_dp]. }
  destruct (Get i a Na) as (va & Va & Ea). destruct (Get j b Nb) as (vb & Vb & Eb). destruct (Get k c Nc) as (vc & Vc & Ec).
  assert (T : exists t, In t ts /\ corners_at p (i, j, k) t).
  { clear - F2 Il. induction F2 as [|s t l ts H _ IH]; [destruct Il|]. destruct Il as [->|Il]; [exists t; cbn; tauto|]. destruct (IH Il) as (t' & It & V). exists t'. cbn; tauto. }
  destruct T as (t & It & (a' & b' & c' & Pa & Pb & Pc & ->)).
  rewrite Va in Pa. rewrite Vb in Pb. rewrite Vc in Pc. injection Pa as <-. injection Pb as <-. injection Pc as <-.
  cbn [map] in Hh. rewrite Ea, Eb, Ec in *.
  assert (Io : In [va; vb; vc] o') by (apply I; split; [exact It|]; apply parea_flat; rewrite <- flat3_fl; exact NF).
  exists o'. split; [destruct o'; [destruct Io|injection H as <-; reflexivity]|]. exists [va; vb; vc]. split; [exact Io|].
  apply (hull_unfl h).
  - apply level_plan. apply (level_incl _ _ _ Lv). apply nth_error_In in Va, Vb, Vc. intros x [<-|[<-|[<-|[]]]]; assumption.
  - apply (hull_height h (map dp p)); [apply level_plan; exact Lv|exact Hq].
  - exact Hh.
Qed.
Lemma on_line_fl ps : on_line (map fl ps) -> on_line ps.
Proof.
  intros (m & n & d & Nz & H). exists m, n, d. split; [exact Nz|]. rewrite Forall_map in H. eapply Forall_impl; [|exact H]. intros p E. rewrite <- E. p3 p. cbn. ring.
Qed.

(** Heights of the points found. *)
Lemma adm_level h t1 t2 v : tri1 t1 -> tri1 t2 -> level h (t1 ++ t2) -> admE t1 t2 v -> height (dp v) = h.
Proof.
  intros T1 T2 Lv A. destruct (dadmissible_near h t1 t2 v T1 T2 Lv A) as [(ws & B & _) _].
  apply (bary_height h ws _ _ B). change (plan h (map dp t1)). apply level_plan, (level_incl _ _ _ Lv), incl_appl, incl_refl.
Qed.

Lemma dreached rough (classify : vecs -> vecs -> res Z) inter simple o1 o2 r i j t1 t2 : dcommon_pieces rough classify inter simple o1 o2 = Ok r ->
  nth_error o1 i = Some t1 -> nth_error o2 j = Some t2 -> rough t1 = Ok true ->
  (forall k' t', (k' < j)%nat -> nth_error o2 k' = Some t' -> classify t1 t' <> Ok 1%Z) ->
  classify t1 t2 = Ok 3%Z -> exists q, inter i j t1 t2 = Ok q.
Proof.
  intros H Hi Hj Hr X C. unfold dcommon_pieces in H. apply bind_Ok_inv in H as (c & Ec & _).
  destruct (douter_spec rough classify inter simple 0 o1 o2 c Ec) as (cs & _ & Lc & Hc).
  destruct (nth_same_length o1 cs i t1 (eq_sym Lc) Hi) as (x & Nx). specialize (Hc i t1 x Hi Nx). cbn [Nat.add] in Hc.
  unfold dcontribution in Hc. rewrite Hr in Hc. cbn [bind] in Hc. apply bind_Ok_inv in Hc as (b & Eb & _).
  destruct (inner_reached classify inter i t1 o2 0 None b j t2 Eb Hj X C) as (q & Eq). eauto.
Qed.
