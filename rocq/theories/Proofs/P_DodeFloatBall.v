(** The test of the bounding circles of dode2/intsct.py in binary64 and the completeness of the
    intersection of dode2 objects that follows: C107, C100.
    Here la is any np.dot and np.linalg.det accurate to the bounds of Spec/LinAlg; C108 says
    which evaluations are.  Examples and refutations use the textbook ones (Bnum). *)
From Coq Require Import Reals List ZArith Lia Lra Bool.
From Flocq Require Import IEEE754.Binary.
From Verif Require Import Base.Res Model.Tau Model.Arr Model.Num Model.Vectors Model.DodeMath1 Model.DodeNumeric Model.DodeIntersect
  Spec.LinAlg Spec.Value Spec.RVec Spec.Shape Spec.DodeSpec Spec.Sets Spec.Space Spec.Tetra Spec.Overlap Spec.Plane Spec.Samples Spec.DodeSamples Spec.Float Spec.PlaneFloat.
Import ListNotations.
Local Open Scope R_scope.

From Verif Require Proofs.LinAlgLemmas.
From Coq Require Import Classical.
From Verif Require Import Proofs.ResLemmas Proofs.Irrational Proofs.RVecLemmas Proofs.MeanLemmas Proofs.ScalarLemmas Proofs.VectorLemmas Proofs.VectorLemmas2 Proofs.NumLemmas Proofs.IntersectLemmas Proofs.DodeProj Proofs.DodeAreaLemmas Proofs.PlaneLemmas Proofs.Polytope Proofs.DodeIntersectLemmas Proofs.P_DodeIntersect
  Proofs.FloatGeom Proofs.DodeFloatGeom Proofs.P_DodeOverlap Proofs.P_DodeFloat Proofs.FloatBall Proofs.DodeFloatBall.

Lemma dcentre_good t c : t <> [] -> goods 6 t -> dcentroid t = Ok c -> good 6 c.
Proof.
  intros Ht G E. destruct (wp_elim _ _ (centroid_spec dode_arith t Ht G)) as (m & Em & Cm & Vm). fold dcentroid in Em. rewrite E in Em. injection Em as <-.
  apply dgood_canon; [exact Cm|]. rewrite <- (vals_length SIN), Vm. apply mean_length. rewrite Forall_map. eapply Forall_impl; [|exact G].
  intros v [_ L]. rewrite vals_length. exact L.
Qed.
Lemma dcentre_obj_good o c : o <> [] -> tris o -> dcentroid_obj o = Ok c -> good 6 c.
Proof.
  intros Ne To E. assert (To' : Forall (fun t => t <> [] /\ goods 6 t) o).
  { eapply Forall_impl; [|exact To]. intros x [L Gx]. split; [|exact Gx]. intros ->. discriminate. }
  destruct (wp_elim _ _ (centroid_obj_spec dode_arith o Ne To')) as (m & Em & Cc & Vc). fold dcentroid_obj in Em. rewrite E in Em. injection Em as <-.
  apply dgood_canon; [exact Cc|]. rewrite <- (vals_length SIN), Vc. apply mean_length. rewrite Forall_map. eapply Forall_impl; [|exact To].
  intros x [_ Gx]. apply mean_length. rewrite Forall_map. eapply Forall_impl; [|exact Gx]. intros v [_ L]. rewrite vals_length. exact L.
Qed.
Lemma dfarthest c vs : vs <> [] -> exists v, In v vs /\ Forall (fun u => dist3 (dp u) c <= dist3 (dp v) c) vs.
Proof.
  induction vs as [|u vs IH]; [contradiction|]. intros _. destruct vs as [|u' vs]; [exists u; split; [left; reflexivity|apply Forall_cons; [lra|apply Forall_nil]]|].
  destruct IH as (v & Iv & Fv); [discriminate|]. destruct (Rle_dec (dist3 (dp u) c) (dist3 (dp v) c)) as [L|G].
  - exists v. split; [right; exact Iv|apply Forall_cons; assumption].
  - exists u. split; [left; reflexivity|]. apply Forall_cons; [lra|]. eapply Forall_impl; [|exact Fv]. intros a Ha. lra.
Qed.
(** C107: the radius of an object computed in binary64 reaches every vertex up to the rounding. *)
Lemma L_C107_radius : forall la, linalg_ok la ->
  forall A o c, tris o -> good 6 c -> 1 <= A <= 1000000 -> (forall v, In v (concat o) -> dgap_ok A v c) ->
  exists r, dball_radius_obj (@Bmath la) (A4 o) c = Ok r /\ is_finite 53 1024 r = true /\ forall t p, In t o -> hull (map dp t) p -> dist3 p (dp c) <= B2R 53 1024 r + A / 10 ^ 14.
Proof.
  intros la LA. intros A o c To Gc HA Gp. assert (G : goods 6 (concat o)).
  { apply Forall_forall. intros v Hv. apply in_concat in Hv as (t & Ht & Hv). unfold tris in To. rewrite Forall_forall in To. destruct (To t Ht) as [_ Gt].
    unfold goods in Gt. rewrite Forall_forall in Gt. auto. }
  destruct (dball_B A (concat o) (A4 o) c HA ltac:(right; eauto) G Gc Gp) as (r & E & Fr & Br & Dr). exists r. split; [exact E|]. split; [exact Fr|].
  intros t p It Hp. apply (hull_ball _ p (dp c) _ Hp). rewrite Forall_map, Forall_forall. intros v Iv. specialize (Dr v ltac:(apply in_concat; eauto)). unfold slack in Dr. lra.
Qed.
(** A triangle that has a point in common with the object passes the test in binary64, unless
    the point lies within A / 10^13 of both circles. *)
Lemma L_C107_never_discards : forall la, linalg_ok la ->
  forall A t o t2 c1 c2 p, length t = 3%nat -> goods 6 t -> tris o -> In t2 o ->
  dcentroid t = Ok c1 -> dcentroid_obj o = Ok c2 -> dfit_balls A t c1 o c2 ->
  hull (map dp t) p -> hull (map dp t2) p -> ddeep_by (A / 10 ^ 13) t c1 p \/ ddeep_by (A / 10 ^ 13) (concat o) c2 p ->
  exists r, dball_radius_obj (@Bmath la) (A4 o) c2 = Ok r /\ rough_check_intersection_triangle_obj (@Bmath la) t c2 r = Ok true.
Proof.
  intros la LA. intros A t o t2 c1 c2 p L Gt To I2 E1 E2 (HA & Gp1 & Gp2 & Gc) H1 H2 Dp.
  assert (G1 : good 6 c1) by (apply (dcentre_good t); try assumption; intros ->; discriminate).
  assert (G2 : good 6 c2) by (apply (dcentre_obj_good o); try assumption; intros ->; destruct I2).
  assert (G : goods 6 (concat o)).
  { apply Forall_forall. intros v Hv. apply in_concat in Hv as (t' & Ht & Hv). unfold tris in To. rewrite Forall_forall in To. destruct (To t' Ht) as [_ Gt'].
    unfold goods in Gt'. rewrite Forall_forall in Gt'. auto. }
  destruct (dball_B A (concat o) (A4 o) c2 HA ltac:(right; eauto) G G2 Gp2) as (r & E & Fr & Br & Dr). exists r. split; [exact E|].
  destruct (dfarthest (dp c1) t) as (v1 & Iv1 & F1); [intros ->; discriminate|].
  assert (L2 : t2 <> []). { unfold tris in To. rewrite Forall_forall in To. destruct (To t2 I2) as [X _]. intros ->. discriminate. }
  destruct (dfarthest (dp c2) t2) as (v2 & Iv2 & F2); [exact L2|].
  assert (M1 : dist3 p (dp c1) <= dist3 (dp v1) (dp c1)) by (apply (hull_ball _ p _ _ H1); rewrite Forall_map; exact F1).
  assert (M2 : dist3 p (dp c2) <= dist3 (dp v2) (dp c2)) by (apply (hull_ball _ p _ _ H2); rewrite Forall_map; exact F2).
  pose proof (dist3_triangle (dp c1) p (dp c2)) as T. rewrite (dist3_sym (dp c1) p) in T.
  destruct Dp as [(v & Iv & Dv)|(v & Iv & Dv)].
  - apply (drough_B A t c1 c2 r v (dist3 (dp v2) (dp c2)) HA Gt E1 G1 G2 Gp1 Gc Fr Br); [apply Dr, in_concat; eauto|exact Iv|lra].
  - apply (drough_B A t c1 c2 r v1 (dist3 (dp v) (dp c2)) HA Gt E1 G1 G2 Gp1 Gc Fr Br); [apply Dr, Iv|exact Iv1|lra].
Qed.


(** C100: so a common point is in the result, or the common part is thin, as soon as some common
    point lies inside one of the circles. *)
Lemma L_C100_all_kept : forall la, linalg_ok la ->
  forall delaunay o1 o2 r t1 t2 c1 c2 p q A D h B, tris o1 -> tris o2 -> In t1 o1 -> In t2 o2 ->
  triangulates (@Bmath la) delaunay ->
  dintersection (@Bmath la) delaunay false (A4 o1) (A4 o2) = Ok r ->
  fit_pair2 A D h t1 t2 -> neat_pair t1 t2 -> overlaps t1 t2 ->
  dcentroid t1 = Ok c1 -> dcentroid_obj o2 = Ok c2 -> dfit_balls B t1 c1 o2 c2 ->
  hull (map dp t1) q -> hull (map dp t2) q -> ddeep_by (B / 10 ^ 13) t1 c1 q \/ ddeep_by (B / 10 ^ 13) (concat o2) c2 q ->
  hull (map dp t1) p -> hull (map dp t2) p ->
  (exists r', r = Some r' /\ dregion r' p) \/ thin2 t1 t2.
Proof.
  intros la LA. intros delaunay o1 o2 r t1 t2 c1 c2 p q A D h B T1 T2 I1 I2 Tri H F Nt Ov E1 E2 FB Q1 Q2 Dq H1 H2.
  apply (L_C100_nothing_lost la LA delaunay o1 o2 r t1 t2 p A D h); try assumption.
  intros c d Ec Ed. assert (c = c2) as -> by congruence. assert (T1' := T1). unfold tris in T1'. rewrite Forall_forall in T1'. destruct (T1' t1 I1) as [L1 G1].
  destruct (L_C107_never_discards la LA B t1 o2 t2 c1 c2 q L1 G1 T2 I2 E1 E2 FB Q1 Q2 Dq) as (d' & Ed' & R). assert (d' = d) as <- by congruence. exact R.
Qed.

Lemma dgap_of A u v w r : dsub_vectors u v = Ok w -> dprojection3 w = Ok r -> Forall (coef A) r -> dgap_ok A u v.
Proof. intros E1 E2 H d r' E3 E4. assert (d = w) as -> by congruence. assert (r' = r) as -> by congruence. exact H. Qed.
Ltac dgap1 := eapply dgap_of; [vm_compute; reflexivity|vm_compute; reflexivity|
  repeat (apply Forall_cons; [cbn; repeat split; try lia; unfold Rabs; repeat destruct (Rcase_abs _); lra|]); apply Forall_nil].
Ltac dgaps := let v := fresh "v" in let I := fresh "I" in intros v I; revert v I; apply Forall_forall; unfold triA, triB; cbn [concat app]; repeat (apply Forall_cons; [dgap1|]); apply Forall_nil.
(** Two triangles with a common vertex, the second the first turned about it and tripled: their
    circles touch, and the computed ones do not. *)
Lemma L_C107_touching_missed_refuted : exists t t2 c1 c2 r p, length t = 3%nat /\ goods 6 t /\ tris [t2] /\ dcentroid t = Ok c1 /\ dcentroid_obj [t2] = Ok c2 /\
  dfit_balls 60 t c1 [t2] c2 /\ hull (map dp t) p /\ hull (map dp t2) p /\
  dball_radius_obj Bnum (A4 [t2]) c2 = Ok r /\ rough_check_intersection_triangle_obj Bnum t c2 r = Ok false.
Proof.
  set (t := [o6; pl (T 3 0 1) (T 1 0 1); pl (T 4 0 1) (T 1 0 1)]). set (t2 := [o6; pl (T (-9) 0 1) (T (-3) 0 1); pl (T (-12) 0 1) (T (-3) 0 1)]).
  assert (X : exists c1 c2, dcentroid t = Ok c1 /\ dcentroid_obj [t2] = Ok c2 /\ dfit_balls 60 t c1 [t2] c2).
  { do 2 eexists. split; [vm_compute; reflexivity|]. split; [vm_compute; reflexivity|]. split; [lra|]. unfold t, t2. split; [dgaps|]. split; [dgaps|dgap1]. }
  destruct X as (c1 & c2 & E1 & E2 & Fb).
  assert (Y : bind (dcentroid_obj [t2]) (fun c => bind (dball_radius_obj Bnum (A4 [t2]) c) (fun d => rough_check_intersection_triangle_obj Bnum t c d)) = Ok false) by (vm_cast_no_check (eq_refl (@Ok bool false))).
  rewrite E2 in Y. cbn [bind] in Y. apply bind_Ok_inv in Y as (r & Er & Y).
  exists t, t2, c1, c2, r, (dp o6). split; [reflexivity|]. split; [unfold t; gd|]. split; [unfold t2; gd|]. split; [exact E1|]. split; [exact E2|]. split; [exact Fb|].
  split; [apply hull_mem, in_map; left; reflexivity|]. split; [apply hull_mem, in_map; left; reflexivity|]. split; [exact Er|exact Y].
Qed.
(** The two overlapping triangles of C100; with them all that C100_all_kept asks for is met. *)
Example E_C107_ex : dcentroid triA = Ok (pl (T 1 0 3) (T 1 0 3)) /\ dcentroid_obj [triB] = Ok (pl (T 7 0 12) (T 7 0 12)) /\ length triA = 3%nat /\ goods 6 triA /\ tris [triB] /\
  dfit_balls 2 triA (pl (T 1 0 3) (T 1 0 3)) [triB] (pl (T 7 0 12) (T 7 0 12)) /\ hull (map dp triA) (dp (q 1 1)) /\ hull (map dp triB) (dp (q 1 1)) /\
  ddeep_by (2 / 10 ^ 13) triA (pl (T 1 0 3) (T 1 0 3)) (dp (q 1 1)).
Proof.
  split; [vm_compute; reflexivity|]. split; [vm_compute; reflexivity|]. split; [reflexivity|]. split; [gd|]. split; [gd|].
  split. { split; [lra|]. split; [dgaps|]. split; [dgaps|dgap1]. }
  split; [unfold triA; bars [1/2; 1/4; 1/4]|]. split; [apply hull_mem; left; reflexivity|].
  exists x2. split; [cbn; auto|]. unfold dist3. dpq.
  match goal with |- norm3 ?a + _ <= norm3 ?b => assert (Z : norm3 a <= 1/2); [|assert (Z' : 2/3 <= norm3 b); [|lra]] end.
  - eapply Rle_trans; [apply (norm3_bnd (1/12)); [lra|]|lra]. cbn. split; [|split]; apply Rabs_le; lra.
  - eapply Rle_trans; [|exact (proj1 (CoplanarLemmas.norm3_comp _ _ _))]. rewrite Rabs_pos_eq; lra.
Qed.

(** The textbook np.dot and np.linalg.det meet the bounds asked of la. *)
Example E_C107_linalg : linalg_ok textbook.
Proof. exact Proofs.LinAlgLemmas.textbook_ok. Qed.
