(** The test of the bounding spheres of ico2/intsct.py in binary64 and the completeness of the
    intersection of ico2 objects that follows: C106, C95.
    Here la is any np.dot and np.linalg.det accurate to the bounds of Spec/LinAlg; C108 says
    which evaluations are.  Examples and refutations use the textbook ones (Bnum). *)
From Coq Require Import Reals List ZArith Lia Lra Bool.
From Flocq Require Import IEEE754.Binary.
From Verif Require Import Base.Res Model.Tau Model.Arr Model.Num Model.Vectors Model.IcoNumeric Model.IcoMath1 Model.IcoIntersect
  Spec.LinAlg Spec.Value Spec.RVec Spec.Shape Spec.IcoSpec Spec.Sets Spec.Space Spec.Tetra Spec.Samples Spec.Region Spec.Overlap Spec.Convex Spec.Float Spec.SpaceFloat.
Import ListNotations.
Local Open Scope R_scope.

From Verif Require Proofs.LinAlgLemmas.
From Coq Require Import Classical.
From Verif Require Import Proofs.ResLemmas Proofs.Irrational Proofs.RVecLemmas Proofs.MeanLemmas Proofs.ScalarLemmas Proofs.VectorLemmas Proofs.VectorLemmas2 Proofs.NumLemmas Proofs.IcoVolumeLemmas Proofs.IntersectLemmas Proofs.P_Intersect
  Proofs.P_Convex Proofs.FloatGeom Proofs.P_Float Proofs.FloatCoplanar Proofs.P_FloatComplete Proofs.FloatBall Proofs.Polytope.

Lemma centre_good t c : t <> [] -> goods 6 t -> centroid t = Ok c -> good 6 c.
Proof.
  intros Ht G E. destruct (wp_elim _ _ (centroid_spec ico_arith t Ht G)) as (m & Em & Cm & Vm). fold centroid in Em. rewrite E in Em. injection Em as <-.
  apply good_canon; [exact Cm|]. rewrite <- (vals_length TAU), Vm. apply mean_length. rewrite Forall_map. eapply Forall_impl; [|exact G].
  intros v [_ L]. rewrite vals_length. exact L.
Qed.
Lemma centre_obj_good o c : o <> [] -> tets o -> centroid_obj o = Ok c -> good 6 c.
Proof.
  intros Ne To E. assert (To' : Forall (fun t => t <> [] /\ goods 6 t) o).
  { eapply Forall_impl; [|exact To]. intros x [L Gx]. split; [|exact Gx]. intros ->. discriminate. }
  destruct (wp_elim _ _ (centroid_obj_spec ico_arith o Ne To')) as (m & Em & Cc & Vc). fold centroid_obj in Em. rewrite E in Em. injection Em as <-.
  apply good_canon; [exact Cc|]. rewrite <- (vals_length TAU), Vc. apply mean_length. rewrite Forall_map. eapply Forall_impl; [|exact To].
  intros x [_ Gx]. apply mean_length. rewrite Forall_map. eapply Forall_impl; [|exact Gx]. intros v [_ L]. rewrite vals_length. exact L.
Qed.
Lemma farthest c vs : vs <> [] -> exists v, In v vs /\ Forall (fun u => dist3 (pp u) c <= dist3 (pp v) c) vs.
Proof.
  induction vs as [|u vs IH]; [contradiction|]. intros _. destruct vs as [|u' vs]; [exists u; split; [left; reflexivity|apply Forall_cons; [lra|apply Forall_nil]]|].
  destruct IH as (v & Iv & Fv); [discriminate|]. destruct (Rle_dec (dist3 (pp u) c) (dist3 (pp v) c)) as [L|G].
  - exists v. split; [right; exact Iv|apply Forall_cons; assumption].
  - exists u. split; [left; reflexivity|]. apply Forall_cons; [lra|]. eapply Forall_impl; [|exact Fv]. intros a Ha. lra.
Qed.
(** C106: the radius of an object computed in binary64 reaches every vertex up to the rounding. *)
Lemma L_C106_radius : forall la, linalg_ok la ->
  forall A o c, tets o -> good 6 c -> 1 <= A <= 1000000 -> (forall v, In v (concat o) -> gap_ok A v c) ->
  exists r, ball_radius_obj (@Bmath la) (A4 o) c = Ok r /\ is_finite 53 1024 r = true /\ forall t p, In t o -> hull (map pp t) p -> dist3 p (pp c) <= B2R 53 1024 r + A / 10 ^ 14.
Proof.
  intros la LA. intros A o c To Gc HA Gp. assert (G : goods 6 (concat o)).
  { apply Forall_forall. intros v Hv. apply in_concat in Hv as (t & Ht & Hv). unfold tets in To. rewrite Forall_forall in To. destruct (To t Ht) as [_ Gt].
    unfold goods in Gt. rewrite Forall_forall in Gt. auto. }
  destruct (ball_B A (concat o) (A4 o) c HA ltac:(right; eauto) G Gc Gp) as (r & E & Fr & Br & Dr). exists r. split; [exact E|]. split; [exact Fr|].
  intros t p It Hp. apply (hull_ball _ p (pp c) _ Hp). rewrite Forall_map, Forall_forall. intros v Iv. specialize (Dr v ltac:(apply in_concat; eauto)). unfold slack in Dr. lra.
Qed.
(** A tetrahedron that has a point in common with the object passes the test in binary64, unless
    the point lies within A / 10^13 of both spheres. *)
Lemma L_C106_never_discards : forall la, linalg_ok la ->
  forall A t o t2 c1 c2 p, length t = 4%nat -> goods 6 t -> tets o -> In t2 o ->
  centroid t = Ok c1 -> centroid_obj o = Ok c2 -> fit_balls A t c1 o c2 ->
  hull (map pp t) p -> hull (map pp t2) p -> deep_by (A / 10 ^ 13) t c1 p \/ deep_by (A / 10 ^ 13) (concat o) c2 p ->
  exists r, ball_radius_obj (@Bmath la) (A4 o) c2 = Ok r /\ rough_check_intersection_tetrahedron_obj (@Bmath la) t c2 r = Ok true.
Proof.
  intros la LA. intros A t o t2 c1 c2 p L Gt To I2 E1 E2 (HA & Gp1 & Gp2 & Gc) H1 H2 Dp.
  assert (G1 : good 6 c1) by (apply (centre_good t); try assumption; intros ->; discriminate).
  assert (G2 : good 6 c2) by (apply (centre_obj_good o); try assumption; intros ->; destruct I2).
  assert (G : goods 6 (concat o)).
  { apply Forall_forall. intros v Hv. apply in_concat in Hv as (t' & Ht & Hv). unfold tets in To. rewrite Forall_forall in To. destruct (To t' Ht) as [_ Gt'].
    unfold goods in Gt'. rewrite Forall_forall in Gt'. auto. }
  destruct (ball_B A (concat o) (A4 o) c2 HA ltac:(right; eauto) G G2 Gp2) as (r & E & Fr & Br & Dr). exists r. split; [exact E|].
  destruct (farthest (pp c1) t) as (v1 & Iv1 & F1); [intros ->; discriminate|].
  assert (L2 : t2 <> []). { unfold tets in To. rewrite Forall_forall in To. destruct (To t2 I2) as [X _]. intros ->. discriminate. }
  destruct (farthest (pp c2) t2) as (v2 & Iv2 & F2); [exact L2|].
  assert (M1 : dist3 p (pp c1) <= dist3 (pp v1) (pp c1)) by (apply (hull_ball _ p _ _ H1); rewrite Forall_map; exact F1).
  assert (M2 : dist3 p (pp c2) <= dist3 (pp v2) (pp c2)) by (apply (hull_ball _ p _ _ H2); rewrite Forall_map; exact F2).
  pose proof (dist3_triangle (pp c1) p (pp c2)) as T. rewrite (dist3_sym (pp c1) p) in T.
  destruct Dp as [(v & Iv & Dv)|(v & Iv & Dv)].
  - apply (rough_B A t c1 c2 r v (dist3 (pp v2) (pp c2)) HA Gt E1 G1 G2 Gp1 Gc Fr Br); [apply Dr, in_concat; eauto|exact Iv|lra].
  - apply (rough_B A t c1 c2 r v1 (dist3 (pp v) (pp c2)) HA Gt E1 G1 G2 Gp1 Gc Fr Br); [apply Dr, Iv|exact Iv1|lra].
Qed.

(** C95: so a common point is in the result, or the common part is thin, as soon as some common
    point lies inside one of the spheres. *)
Lemma L_C95_all_kept : forall la, linalg_ok la ->
  forall delaunay draws o1 o2 r t1 t2 c1 c2 p q A D A' D' B, tets o1 -> tets o2 -> In t1 o1 -> In t2 o2 ->
  triangulates3 (@Bmath la) delaunay ->
  intersection (@Bmath la) delaunay draws false (A4 o1) (A4 o2) = Ok r ->
  fit_pair A D t1 t2 -> steep t1 t2 -> steep t2 t1 -> tame_points (@Bmath la) A' D' t1 t2 ->
  centroid t1 = Ok c1 -> centroid_obj o2 = Ok c2 -> fit_balls B t1 c1 o2 c2 ->
  hull (map pp t1) q -> hull (map pp t2) q -> deep_by (B / 10 ^ 13) t1 c1 q \/ deep_by (B / 10 ^ 13) (concat o2) c2 q ->
  hull (map pp t1) p -> hull (map pp t2) p ->
  (exists r', r = Some r' /\ region r' p) \/ thin_by (flatness A' D') t1 t2.
Proof.
  intros la LA. intros delaunay draws o1 o2 r t1 t2 c1 c2 p q A D A' D' B T1 T2 I1 I2 Tri H F S1 S2 Tp E1 E2 FB Q1 Q2 Dq H1 H2.
  apply (L_C95_nothing_lost la LA delaunay draws o1 o2 r t1 t2 p A D A' D'); try assumption.
  intros c d Ec Ed. assert (c = c2) as -> by congruence. assert (T1' := T1). unfold tets in T1'. rewrite Forall_forall in T1'. destruct (T1' t1 I1) as [L1 G1].
  destruct (L_C106_never_discards la LA B t1 o2 t2 c1 c2 q L1 G1 T2 I2 E1 E2 FB Q1 Q2 Dq) as (d' & Ed' & R). assert (d' = d) as <- by congruence. exact R.
Qed.

Lemma gap_of A u v w r : sub_vectors u v = Ok w -> projection3 w = Ok r -> Forall (coef A) r -> gap_ok A u v.
Proof. intros E1 E2 H d r' E3 E4. assert (d = w) as -> by congruence. assert (r' = r) as -> by congruence. exact H. Qed.
Ltac gap1 := eapply gap_of; [vm_compute; reflexivity|vm_compute; reflexivity|
  repeat (apply Forall_cons; [cbn; repeat split; try lia; unfold Rabs; repeat destruct (Rcase_abs _); lra|]); apply Forall_nil].
Ltac gaps := let v := fresh "v" in let I := fresh "I" in intros v I; revert v I; apply Forall_forall; unfold tetP, tetM; cbn [concat app]; repeat (apply Forall_cons; [gap1|]); apply Forall_nil.
(** Two tetrahedra with a common vertex, the second the first turned about it and doubled: their
    spheres touch, and the computed ones do not. *)
Lemma L_C106_touching_missed_refuted : exists t t2 c1 c2 r p, length t = 4%nat /\ goods 6 t /\ tets [t2] /\ centroid t = Ok c1 /\ centroid_obj [t2] = Ok c2 /\
  fit_balls 60 t c1 [t2] c2 /\ hull (map pp t) p /\ hull (map pp t2) p /\
  ball_radius_obj Bnum (A4 [t2]) c2 = Ok r /\ rough_check_intersection_tetrahedron_obj Bnum t c2 r = Ok false.
Proof.
  set (t := [at3 1 0 0 0; at3 1 3 3 4; at3 1 4 3 4; at3 1 4 3 6]). set (t2 := [at3 1 0 0 0; at3 1 (-6) (-6) (-8); at3 1 (-8) (-6) (-8); at3 1 (-8) (-6) (-12)]).
  assert (X : exists c1 c2, centroid t = Ok c1 /\ centroid_obj [t2] = Ok c2 /\ fit_balls 60 t c1 [t2] c2).
  { do 2 eexists. split; [vm_compute; reflexivity|]. split; [vm_compute; reflexivity|]. split; [lra|]. unfold t, t2. split; [gaps|]. split; [gaps|gap1]. }
  destruct X as (c1 & c2 & E1 & E2 & Fb).
  assert (Y : bind (centroid_obj [t2]) (fun c => bind (ball_radius_obj Bnum (A4 [t2]) c) (fun d => rough_check_intersection_tetrahedron_obj Bnum t c d)) = Ok false) by (vm_cast_no_check (eq_refl (@Ok bool false))).
  rewrite E2 in Y. cbn [bind] in Y. apply bind_Ok_inv in Y as (r & Er & Y).
  exists t, t2, c1, c2, r, (pp (at3 1 0 0 0)). split; [reflexivity|]. split; [unfold t; gd|]. split; [unfold t2; gd|]. split; [exact E1|]. split; [exact E2|]. split; [exact Fb|].
  split; [apply hull_mem, in_map; left; reflexivity|]. split; [apply hull_mem, in_map; left; reflexivity|]. split; [exact Er|exact Y].
Qed.
(** Two overlapping tetrahedra whose common point is the centre of the first. *)
Example E_C106_ex : centroid tetP = Ok (at3 4 1 1 1) /\ centroid_obj [tetM] = Ok (at3 1 0 0 0) /\ length tetP = 4%nat /\ goods 6 tetP /\ tets [tetM] /\
  fit_balls 2 tetP (at3 4 1 1 1) [tetM] (at3 1 0 0 0) /\ hull (map pp tetP) (pp (at3 4 1 1 1)) /\ hull (map pp tetM) (pp (at3 4 1 1 1)) /\
  deep_by (2 / 10 ^ 13) tetP (at3 4 1 1 1) (pp (at3 4 1 1 1)).
Proof.
  destruct E_C95_ex as (G1 & G2 & _ & _ & _ & _ & _ & _ & H1 & H2 & _).
  split; [vm_compute; reflexivity|]. split; [vm_compute; reflexivity|]. split; [reflexivity|]. split; [gd|]. split; [gd|].
  split. { split; [lra|]. split; [gaps|]. split; [gaps|gap1]. } split; [exact H1|]. split; [exact H2|].
  exists (at3 1 1 0 0). split; [cbn; auto|]. rewrite !pp_at3 by lia. unfold ax, dist3. pose proof TAU_bounds.
  match goal with |- norm3 ?a + _ <= norm3 ?b => assert (Z : norm3 a = 0); [cbn; unfold norm3; cbn; rewrite <- sqrt_0; f_equal; field|rewrite Z; destruct b as [[x y] z] eqn:Eb; pose proof (CoplanarLemmas.norm3_comp x y z) as (N0 & N1 & N2); cbn in Eb; injection Eb as <- <- <-] end.
  match type of N0 with Rabs ?a <= _ => assert (0.1 <= a \/ a <= -0.1) by lra end.
  unfold Rabs in N0. destruct (Rcase_abs _) in N0; lra.
Qed.
(** All that C95_all_kept asks for is met by these two tetrahedra. *)
Example E_C95_kept : exists delaunay draws r, triangulates3 Bnum delaunay /\ intersection Bnum delaunay draws false (A4 [tetP]) (A4 [tetM]) = Ok (Some r) /\
  tets [tetP] /\ tets [tetM] /\ fit_pair 1 5 tetP tetM /\ steep tetP tetM /\ steep tetM tetP /\ tame_points Bnum 1 5 tetP tetM /\
  centroid tetP = Ok (at3 4 1 1 1) /\ centroid_obj [tetM] = Ok (at3 1 0 0 0) /\ fit_balls 2 tetP (at3 4 1 1 1) [tetM] (at3 1 0 0 0) /\
  hull (map pp tetP) (pp (at3 4 1 1 1)) /\ hull (map pp tetM) (pp (at3 4 1 1 1)) /\ deep_by (2 / 10 ^ 13) tetP (at3 4 1 1 1) (pp (at3 4 1 1 1)).
Proof.
  destruct E_C95_complete as (de & dr & r & Tr & E & T1 & T2 & Fp & S1 & S2 & Tp & _). destruct E_C106_ex as (E1 & E2 & _ & _ & _ & Fb & H1 & H2 & Dp).
  exists de, dr, r. tauto.
Qed.

(** The textbook np.dot and np.linalg.det meet the bounds asked of la. *)
Example E_C106_linalg : linalg_ok textbook.
Proof. exact Proofs.LinAlgLemmas.textbook_ok. Qed.
