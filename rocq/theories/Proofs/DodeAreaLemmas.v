(** Sums of areas of dode2 objects and their invariance. *)
From Coq Require Import Reals List ZArith Lia Lra Bool Permutation Psatz.
From Verif Require Import Base.Res Model.Tau Model.Arr Model.DodeScalar Model.Vectors Model.IcoMath1 Model.DodeMath1
  Model.DodeSymmetry Model.Sign Model.DodeArea
  Spec.Value Spec.RVec Spec.Shape Spec.IcoSpec Spec.DodeSpec
  Proofs.ResLemmas Proofs.ValueLemmas Proofs.Irrational Proofs.ScalarLemmas Proofs.RVecLemmas Proofs.VectorLemmas
  Proofs.SymopLemmas Proofs.MatLemmas Proofs.MatDec Proofs.GroupLemmas Proofs.SignLemmas Proofs.IcoProj Proofs.IcoGroup
  Proofs.IcoVolumeLemmas Proofs.DodeProj Proofs.DodeGroup.
Import ListNotations.
Local Open Scope R_scope.
Local Opaque dodesymop.

Lemma parea_pairs t : pairs (map (fun v : vec => perp_plane (vals SIN v)) t).
Proof. apply Forall_forall. intros p H. apply in_map_iff in H as (v & <- & _). reflexivity. Qed.
Lemma parea_perm t t' : Permutation t t' -> parea t = parea t'.
Proof. intros P. apply triarea_perm; [apply Permutation_map; exact P|apply parea_pairs]. Qed.

Lemma sum_areas_spec w o : wf w -> tris o ->
  wp (sum_areas w o) (fun r => (o <> [] -> canon r) /\ (o = [] -> r = w) /\
     val SIN r = val SIN w + Rsum (map parea o)).
Proof.
  intros Hw Ho. revert w Hw. induction Ho as [|t o [Lt Gt] _ IH]; intros w Hw; cbn [sum_areas foldM].
  - cbn. split; [congruence|]. split; [reflexivity|lra].
  - apply wp_bind. eapply evals_bind; [apply triarea6_spec; assumption|]. intros v Cv Wv Vv.
    eapply wp_mono; [apply (g_add dode_arith); [exact Hw|exact Wv]|]. intros w' [Cw' Vw'].
    eapply wp_mono; [apply (IH w' (canon_wf _ Cw'))|]. intros r (H1 & H2 & H3).
    split; [|split].
    + intros _. destruct o; [rewrite H2 by reflexivity; exact Cw'|apply H1; discriminate].
    + discriminate.
    + rewrite H3, Vw', Vv. cbn [map Rsum]. lra.
Qed.

Lemma obj_area_spec o : tris o ->
  wp (obj_area_6d (A4 o)) (fun r => exists v, r = Some v /\ canon v /\ val SIN v = Rsum (map parea o)).
Proof.
  intros Ho. cbn [obj_area_6d]. apply wp_bind.
  eapply wp_mono; [apply (sum_areas_spec t0 o); [apply canon_wf, canon_t0|exact Ho]|].
  intros r (H1 & H2 & H3). cbn. exists r. split; [reflexivity|]. split.
  - destruct o; [rewrite H2 by reflexivity; apply canon_t0|apply H1; discriminate].
  - rewrite H3. rewrite val_t0. lra.
Qed.

Lemma foldM_sum_spec w os : canon w -> Forall tris os ->
  wp (foldM sum_areas w os) (fun r => canon r /\
     val SIN r = val SIN w + Rsum (map (fun o => Rsum (map parea o)) os)).
Proof.
  intros Hw Ho. revert w Hw. induction Ho as [|o os Hto _ IH]; intros w Hw; cbn [foldM].
  - cbn. split; [exact Hw|lra].
  - apply wp_bind. eapply wp_mono; [apply (sum_areas_spec w o (canon_wf _ Hw) Hto)|].
    intros r (H1 & H2 & H3).
    assert (canon r) by (destruct o; [rewrite H2 by reflexivity; exact Hw|apply H1; discriminate]).
    eapply wp_mono; [apply IH; assumption|]. intros r' [C V]. split; [exact C|].
    rewrite V, H3. cbn [map Rsum]. lra.
Qed.

Lemma obj_area5_spec os : Forall tris os ->
  wp (obj_area_6d (A5 os)) (fun r => exists v, r = Some v /\ canon v /\
    val SIN v = Rsum (map (fun o => Rsum (map parea o)) os)).
Proof.
  intros Ho. cbn [obj_area_6d]. apply wp_bind.
  eapply wp_mono; [apply (foldM_sum_spec t0 os); [apply canon_t0|exact Ho]|].
  intros r (H1 & H3). cbn. exists r. split; [reflexivity|]. split; [exact H1|].
  rewrite H3. rewrite val_t0. lra.
Qed.


(** Same total, same array. *)
Lemma obj_area_eq o o' : tris o -> tris o' -> Rsum (map parea o) = Rsum (map parea o') ->
  obj_area_6d (A4 o) = obj_area_6d (A4 o').
Proof.
  intros H H' E. pose proof (obj_area_spec o H) as S. pose proof (obj_area_spec o' H') as S'.
  destruct (obj_area_6d (A4 o)) as [r|]; [|contradiction].
  destruct (obj_area_6d (A4 o')) as [r'|]; [|contradiction]. cbn in S, S'.
  destruct S as (v & -> & C & V), S' as (v' & -> & C' & V'). do 2 f_equal.
  apply (canon_val_eq SIN); auto; [exact SIN_irrational|congruence].
Qed.

Lemma obj_area_perm o o' : tris o -> Permutation o o' -> obj_area_6d (A4 o) = obj_area_6d (A4 o').
Proof.
  intros H P. apply obj_area_eq; [exact H|apply (Permutation_Forall P H)|].
  apply Rsum_perm, Permutation_map, P.
Qed.

Lemma obj_area_vertex_perm o o' : tris o -> Forall2 (fun t t' => Permutation t t') o o' ->
  obj_area_6d (A4 o) = obj_area_6d (A4 o').
Proof.
  intros H P. apply obj_area_eq; [exact H| |].
  - clear -H P. induction P as [|t t' o o' Pt _ IH]; [constructor|].
    inversion H as [|? ? [L G] H']; subst. constructor; [|apply IH; assumption]. split.
    + rewrite <- (Permutation_length Pt); exact L.
    + apply (Permutation_Forall Pt); exact G.
  - f_equal. clear H. induction P as [|t t' o o' Pt _ IH]; [reflexivity|]. cbn [map].
    rewrite (parea_perm _ _ Pt), IH. reflexivity.
Qed.

Lemma obj_area_app a b : tris a -> tris b ->
  obj_area_6d (A4 (a ++ b)) =
  bind (obj_area_6d (A4 a)) (fun x => bind (obj_area_6d (A4 b)) (fun y =>
    match x, y with Some x, Some y => bind (dadd x y) (fun z => Ok (Some z)) | _, _ => Ok None end)).
Proof.
  intros Ha Hb.
  pose proof (obj_area_spec a Ha) as Sa. pose proof (obj_area_spec b Hb) as Sb.
  pose proof (obj_area_spec (a ++ b) (proj2 (Forall_app _ _ _) (conj Ha Hb))) as S.
  destruct (obj_area_6d (A4 a)) as [ra|]; [|contradiction].
  destruct (obj_area_6d (A4 b)) as [rb|]; [|contradiction].
  destruct (obj_area_6d (A4 (a ++ b))) as [r|]; [|contradiction]. cbn in S, Sa, Sb.
  destruct S as (v & -> & C & V), Sa as (x & -> & Cx & Vx), Sb as (y & -> & Cy & Vy). cbn [bind].
  pose proof (g_add dode_arith x y (canon_wf _ Cx) (canon_wf _ Cy)) as Hadd.
  destruct (dadd x y) as [z|]; [|contradiction]. destruct Hadd as [Cz Vz]. cbn. do 2 f_equal.
  apply (canon_val_eq SIN); auto; [exact SIN_irrational|].
  rewrite Vz, Vx, Vy, V, map_app, Rsum_app. reflexivity.
Qed.

(** ** Invariance *)



Lemma tris_goodo o : tris o -> goodo 6 o.
Proof. apply Forall_impl. intros t [_ H]; exact H. Qed.


Lemma tris_from (f : vec -> list R) o o' : tris o -> cgoodo 6 o' ->
  map (map (vals SIN)) o' = map (map f) o -> tris o'.
Proof.
  intros H C. revert o' C. induction H as [|t o [L G] _ IH]; intros [|t' o'] C E; cbn in E; try discriminate; constructor.
  - injection E as E1 E2. split.
    + apply (f_equal (@length _)) in E1. rewrite !map_length in E1. lia.
    + apply cgoods_goods. apply (Forall_inv C).
  - injection E as E1 E2. apply IH; [apply (Forall_inv_tail C)|exact E2].
Qed.

Lemma obj_area_shift o s r : tris o -> good 6 s -> dshift_object (A4 o) s = Ok (Some r) ->
  tris r /\ obj_area_6d (A4 r) = obj_area_6d (A4 o).
Proof.
  intros Ho Hs E. pose proof (shift_spec dode_arith o s 6 (tris_goodo _ Ho) Hs) as S.
  change (shift_object_ dadd (A4 o) s) with (dshift_object (A4 o) s) in S. rewrite E in S. cbn in S.
  destruct S as (r' & [= <-] & C & V).
  assert (Hr : tris r) by (eapply tris_from; eassumption). split; [exact Hr|].
  apply obj_area_eq; [exact Hr|exact Ho|].
  f_equal. clear E Hr. revert r C V. induction Ho as [|t o [L G] _ IH]; intros [|t' r] C V; cbn in V; try discriminate; [reflexivity|].
  injection V as V1 V2. cbn [map]. f_equal; [apply (parea_shift (vals SIN s)); [rewrite vals_length; apply Hs|assumption..]|].
  apply IH; [apply (Forall_inv_tail C)|exact V2].
Qed.

Lemma parea_obj_act op c o o' : In op dodesymop -> good 6 c -> tris o ->
  map (map (vals SIN)) o' = map (map (fun v => act op (vals SIN c) (vals SIN v))) o ->
  map parea o' = map parea o.
Proof.
  intros Hop Hc Ho. revert o'. induction Ho as [|t o [L G] _ IH]; intros [|t' r] V; cbn in V; try discriminate; [reflexivity|].
  injection V as V1 V2. cbn [map]. f_equal; [apply (parea_act op (vals SIN c)); [assumption|rewrite vals_length; apply Hc|assumption..]|]. apply IH; exact V2.
Qed.

Lemma obj_area_symop op c o r : In op dodesymop -> good 6 c -> tris o ->
  dsymop_obj op (A4 o) c = Ok (Some (A4 r)) ->
  tris r /\ obj_area_6d (A4 r) = obj_area_6d (A4 o).
Proof.
  intros Hop Hc Ho E.
  assert (S : square 6 op) by (apply (ig_sq _ _ dodesymop_group); exact Hop).
  pose proof (symop_obj4_spec dode_arith op o c 6 ltac:(lia) S (tris_goodo _ Ho) Hc) as HS.
  unfold dsymop_obj in E. cbn [symop_obj_] in E.
  destruct (mapM (fun vts => symop_vecs_ dadd dmul op vts c) o) as [r0|]; [|discriminate].
  cbn in E. injection E as ->. destruct HS as [C V].
  assert (Hr : tris r) by (eapply tris_from; eassumption). split; [exact Hr|].
  apply obj_area_eq; [exact Hr|exact Ho|]. f_equal. apply (parea_obj_act op c); assumption.
Qed.


Lemma obj_area_symmetric o c r : tris o -> good 6 c ->
  dgenerator_obj_symmetric_obj (A4 o) c = Ok (Some (A4 r)) ->
  tris r /\ Rsum (map parea r) = 24 * Rsum (map parea o).
Proof.
  intros Ho Hc E. unfold dgenerator_obj_symmetric_obj in E. cbn [generator_obj_symmetric_obj_] in E.
  pose proof (blocks_spec dode_arith 6 dodesymop dodesymop_group dodesymop o c (ig_sq _ _ dodesymop_group) (tris_goodo _ Ho) Hc) as HB.
  destruct (mapM (fun op0 => mapM (fun vts => symop_vecs_ dadd dmul op0 vts c) o) dodesymop) as [bs|]; [|discriminate].
  cbn in E, HB. injection E as <-.
  assert (F : forall l bs, (forall op, In op l -> In op dodesymop) ->
     Forall2 (fun op b => mapM (fun vts => symop_vecs_ dadd dmul op vts c) o = Ok b
            /\ cgoodo 6 b
            /\ map (map (vals SIN)) b = map (map (fun v => act op (vals SIN c) (vals SIN v))) o) l bs ->
     tris (concat bs) /\ Forall (fun y => Rsum y = Rsum (map parea o)) (map (map parea) bs)).
  { clear HB bs. intros l bs Hl HF. induction HF as [|op b l bs (_ & C & V) _ IH]; [split; constructor|].
    destruct IH as [I1 I2]; [intros; apply Hl; right; assumption|]. split.
    - cbn [concat]. apply Forall_app. split; [exact (tris_from (fun v => act op (vals SIN c) (vals SIN v)) o b Ho C V)|exact I1].
    - cbn [map]. constructor; [|exact I2]. f_equal. apply (parea_obj_act op c); auto. apply Hl; left; reflexivity. }
  destruct (F dodesymop bs (fun _ H => H) HB) as [F1 F2]. split; [exact F1|].
  rewrite concat_map, (Rsum_repeat_concat _ _ F2), map_length.
  apply Forall2_len in HB. rewrite <- HB, dodesymop_length.
  rewrite INR_IZR_INZ. reflexivity.
Qed.

(** ** Similarity on vectors, triangles, objects *)
Lemma similarity_vec_spec m v : good 6 v ->
  evalsv SIN (bind (similarity_vec v m) notNone) (matvec (IZRm (similarity m)) (vals SIN v)).
Proof.
  intros [Wv Lv]. destruct (similarity_square m) as [S1 S2].
  assert (N : similarity m <> []) by (intros E; rewrite E in S1; discriminate).
  pose proof (dot_product_1_spec dode_arith (similarity m) v N) as H. rewrite Lv in H. specialize (H S2 Wv).
  apply wp_elim in H as (o & E & r & -> & C & V). unfold similarity_vec.
  change (ddot_product_1 (similarity m) v) with (dot_product_1_ dadd dmul (similarity m) v). rewrite E. split; assumption.
Qed.
Lemma similarity_act m v : good 6 v -> matvec (IZRm (similarity m)) (vals SIN v) = act (similarity m) ([0;0;0;0;0;0]) (vals SIN v).
Proof.
  intros [Wv Lv]. unfold act.
  assert (L : length (vals SIN v) = 6%nat) by (rewrite vals_length; exact Lv).
  assert (E : vsub (vals SIN v) ([0;0;0;0;0;0]) = vals SIN v).
  { clear -L. destruct (vals SIN v) as [|? [|? [|? [|? [|? [|? [|]]]]]]]; try discriminate. 
    unfold vsub; cbn [zipWith]. repeat (apply f_equal2; [ring|]). reflexivity. }
  rewrite E. pose proof (sq_len (similarity m) (vals SIN v) (similarity_square m)) as L'. clear -L'.
  destruct (matvec _ _) as [|? [|? [|? [|? [|? [|? [|]]]]]]]; try discriminate. 
  unfold vadd; cbn [zipWith]. repeat (apply f_equal2; [ring|]). reflexivity.
Qed.

Lemma similarity_obj_spec m o : goodo 6 o ->
  wp (similarity_obj o m) (fun r => cgoodo 6 r /\
    map (map (vals SIN)) r = map (map (fun v => matvec (IZRm (similarity m)) (vals SIN v))) o).
Proof.
  intros Ho. unfold similarity_obj, similarity_triangle.
  apply (mapM2_evalsv (fun vt => bind (similarity_vec vt m) notNone) (matvec (IZRm (similarity m)))); [exact Ho|].
  intros v Hv. split; [apply similarity_vec_spec; exact Hv|]. apply sq_len, similarity_square.
Qed.

Lemma obj_area_similarity m o r : tris o -> similarity_obj o m = Ok r ->
  tris r /\ Rsum (map parea r) = powerRZ (2 - sqrt 3) m * Rsum (map parea o).
Proof.
  intros Ho E. pose proof (similarity_obj_spec m o (tris_goodo _ Ho)) as S. rewrite E in S. destruct S as [C V].
  assert (Hr : tris r) by (eapply tris_from; eassumption). split; [exact Hr|]. clear Hr E.
  pose proof (similarity_polar m) as HP. cbv zeta in HP.
  set (p := powerRZ (sqrt (2 - sqrt 3)) m * cos (IZR m * (5 * PI / 12))) in *.
  set (q := powerRZ (sqrt (2 - sqrt 3)) m * sin (IZR m * (5 * PI / 12))) in *.
  assert (D : Rabs (p * p - q * - q) = powerRZ (2 - sqrt 3) m).
  { replace (p*p - q * - q) with (p*p+q*q) by ring.
    pose proof SIN_bounds. pose proof two_SIN.
    assert (K : p*p+q*q = powerRZ (2 - sqrt 3) m).
    { unfold p, q. set (r0 := powerRZ (sqrt (2 - sqrt 3)) m). set (x := IZR m * _).
      replace (r0 * cos x * (r0 * cos x) + r0 * sin x * (r0 * sin x)) with (r0 * r0 * (Rsqr (sin x) + Rsqr (cos x))) by (unfold Rsqr; ring).
      rewrite sin2_cos2, Rmult_1_r. unfold r0. rewrite <- powerRZ_mult. rewrite sqrt_sqrt by lra. reflexivity. }
    rewrite <- K. apply Rabs_pos_eq. nra. }
  revert r C V. induction Ho as [|t o [L G] _ IH]; intros [|t' r] C V; cbn in V; try discriminate; [cbn; ring|].
  injection V as V1 V2. cbn [map Rsum]. rewrite (IH r (Forall_inv_tail C) V2).
  rewrite (parea_affine p q (-q) p (similarity m) ([0;0;0;0;0;0]) t t' (powerRZ (2 - sqrt 3) m)); try assumption; [ring| |apply similarity_square|reflexivity|].
  - intros z Lz. destruct (HP z Lz) as (-> & _). destruct (list2 _ (perp_plane_len z)) as (x1 & x2 & ->).
    cbn [rotscale]. unvec. repeat (apply f_equal2; [ring|]). reflexivity.
  - rewrite V1. apply map_ext_in. intros v Hv. apply similarity_act. eapply Forall_forall in G; eassumption.
Qed.

Lemma similarity_obj_compose m n o : goodo 6 o ->
  bind (similarity_obj o m) (fun r => similarity_obj r n) = similarity_obj o (m + n).
Proof.
  intros Ho. pose proof (similarity_obj_spec m o Ho) as S. apply wp_elim in S as (r & -> & C & V). cbn [bind].
  pose proof (similarity_obj_spec n r (cgoodo_goodo _ _ C)) as S2. apply wp_elim in S2 as (r2 & -> & C2 & V2).
  pose proof (similarity_obj_spec (m+n) o Ho) as S3. apply wp_elim in S3 as (r3 & -> & C3 & V3).
  f_equal. apply (cgoodo_det dode_arith 6); [assumption..|]. rewrite V2, V3.
  clear - V Ho. revert r V. induction Ho as [|t o Ht _ IH]; intros [|t' r] V; cbn in V; try discriminate; [reflexivity|].
  injection V as V1 V2. cbn [map]. f_equal; [|apply IH; exact V2].
  clear IH V2. revert t' V1. induction Ht as [|v t [Wv Lv] _ IH]; intros [|v' t'] V1; cbn in V1; try discriminate; [reflexivity|].
  injection V1 as V1 V2. cbn [map]. f_equal; [|apply IH; exact V2]. rewrite V1.
  rewrite <- (matvec_mul 6) by (lia || apply similarity_square || (rewrite vals_length; exact Lv)).
  rewrite similarity_mul, Z.add_comm. reflexivity.
Qed.
