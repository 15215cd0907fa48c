(** Volumes of ico2. *)
From Coq Require Import Reals List ZArith Lia Lra Bool Permutation.
From Verif Require Import Base.Res Model.Tau Model.Arr Model.IcoScalar Model.Vectors Model.IcoMath1 Model.IcoSymmetry
  Model.Sign Model.IcoVolume
  Spec.Value Spec.RVec Spec.Shape Spec.IcoSpec Spec.Geometry
  Proofs.ResLemmas Proofs.ValueLemmas Proofs.Irrational Proofs.ScalarLemmas Proofs.RVecLemmas Proofs.VectorLemmas
  Proofs.MatLemmas Proofs.SymopLemmas Proofs.MatDec Proofs.GroupLemmas Proofs.IcoProj Proofs.IcoGroup
  Proofs.SignLemmas Proofs.GeomLemmas.
Import ListNotations.
Local Open Scope R_scope.
Local Opaque icosasymop.

Lemma canon_wf_const : wf (T (-1) 0 6) /\ wf (T 1 0 6).
Proof. unfold wf; cbn; lia. Qed.

Lemma good_canon n v : canonv v -> length v = n -> good n v.
Proof. intros; split; [apply canonv_wfv|]; assumption. Qed.

Lemma tetrahedron_volume_spec q0 q1 q2 q3 : good 3 q0 -> good 3 q1 -> good 3 q2 -> good 3 q3 ->
  evals TAU (tetrahedron_volume [q0;q1;q2;q3]) (tetvol (map (vals TAU) [q0;q1;q2;q3])).
Proof.
  intros [W0 L0] [W1 L1] [W2 L2] [W3 L3]. unfold tetrahedron_volume. cbn [get nth_error bind map tetvol].
  eapply evalsv_bind; [apply (sub_vectors_spec ico_arith); [exact W1|exact W0|lia]|]. intros v1 _ Wv1 V1.
  eapply evalsv_bind; [apply (sub_vectors_spec ico_arith); [exact W2|exact W0|lia]|]. intros v2 _ Wv2 V2.
  eapply evalsv_bind; [apply (sub_vectors_spec ico_arith); [exact W3|exact W0|lia]|]. intros v3 _ Wv3 V3.
  assert (Lv : forall v q, vals TAU v = vsub (vals TAU q) (vals TAU q0) -> length q = 3%nat -> length v = 3%nat).
  { intros v q E Lq. rewrite <- (vals_length TAU), E, vsub_length; rewrite !vals_length; lia. }
  pose proof (Lv _ _ V1 L1) as Lv1. pose proof (Lv _ _ V2 L2) as Lv2. pose proof (Lv _ _ V3 L3) as Lv3.
  eapply evalsv_bind; [apply (outer_product_spec ico_arith); assumption|]. intros c _ Wc Vc.
  assert (Lc : length c = 3%nat).
  { rewrite <- (vals_length TAU), Vc. apply cross_length; rewrite vals_length; assumption. }
  pose proof (inner_product_spec ico_arith c v3 Wc Wv3) as HI.
  rewrite Lc, Lv3 in HI. cbn [Nat.eqb] in HI.
  apply wp_bind. eapply wp_mono; [exact HI|]. clear HI.
  intros o (a & -> & Ca & Va). cbn [notNone bind].
  rewrite Vc, V1, V2, V3 in Va. change (val TAU a = det3 (vsub (vals TAU q1) (vals TAU q0)) (vsub (vals TAU q2) (vals TAU q0)) (vsub (vals TAU q3) (vals TAU q0))) in Va.
  rewrite <- Va. pose proof (canon_wf _ Ca) as Wa. destruct canon_wf_const as [K1 K2].
  destruct (neg_tau a) eqn:E.
  - apply neg_tau_spec in E; [|exact Wa].
    eapply wp_mono; [apply (g_mul ico_arith); assumption|]. intros r [Cr Vr]. split; [exact Cr|].
    rewrite Vr, Rabs_left by exact E. unfold val at 2. cbn [ta tb tc]. field.
  - assert (0 <= val TAU a).
    { apply Rnot_lt_le. intros H. apply neg_tau_spec in H; [congruence|exact Wa]. }
    eapply wp_mono; [apply (g_mul ico_arith); assumption|]. intros r [Cr Vr]. split; [exact Cr|].
    rewrite Vr, Rabs_pos_eq by assumption. unfold val at 2. cbn [ta tb tc]. field.
Qed.

Lemma tetvol6_spec t : length t = 4%nat -> goods 6 t -> evals TAU (tetrahedron_volume_6d_3 t) (pvol t).
Proof.
  intros L H. destruct t as [|q0 [|q1 [|q2 [|q3 [|]]]]]; try discriminate.
  pose proof (Forall_inv H) as G0. pose proof (Forall_inv (Forall_inv_tail H)) as G1.
  pose proof (Forall_inv (Forall_inv_tail (Forall_inv_tail H))) as G2.
  pose proof (Forall_inv (Forall_inv_tail (Forall_inv_tail (Forall_inv_tail H)))) as G3.
  unfold tetrahedron_volume_6d_3. cbn [get nth_error bind].
  assert (P : forall q r, vals TAU r = perp (vals TAU q) -> canonv r -> good 3 r).
  { intros q r E C. apply good_canon; [exact C|]. rewrite <- (vals_length TAU), E. reflexivity. }
  eapply evalsv_bind; [apply projection3_spec; exact G0|]. intros v0 C0 _ V0.
  eapply evalsv_bind; [apply projection3_spec; exact G1|]. intros v1 C1 _ V1.
  eapply evalsv_bind; [apply projection3_spec; exact G2|]. intros v2 C2 _ V2.
  eapply evalsv_bind; [apply projection3_spec; exact G3|]. intros v3 C3 _ V3.
  eapply wp_mono; [apply tetrahedron_volume_spec; eapply P; eassumption|].
  intros r [Cr Vr]. split; [exact Cr|]. rewrite Vr. unfold pvol. cbn [map]. rewrite V0, V1, V2, V3. reflexivity.
Qed.

Lemma perp_len t : Forall (fun v => length v = 3%nat) (map (fun v : vec => perp (vals TAU v)) t).
Proof. apply Forall_forall. intros v Hv. apply in_map_iff in Hv as (q & <- & _). reflexivity. Qed.

Lemma pvol_perm t t' : Permutation t t' -> pvol t = pvol t'.
Proof. intros P. apply tetvol_perm; [apply Permutation_map; exact P|apply perp_len]. Qed.

Lemma tetvol6_perm t t' : length t = 4%nat -> goods 6 t -> Permutation t t' ->
  tetrahedron_volume_6d_3 t = tetrahedron_volume_6d_3 t'.
Proof.
  intros L H P. apply (evals_det (x := pvol t) TAU_irrational).
  - apply tetvol6_spec; assumption.
  - rewrite (pvol_perm t t' P). apply tetvol6_spec; [rewrite <- (Permutation_length P); exact L|].
    apply (Permutation_Forall P); exact H.
Qed.

(** ** Sums *)
Lemma sum_volumes_spec w o : wf w -> tets o ->
  wp (sum_volumes w o) (fun r => (o <> [] -> canon r) /\ (o = [] -> r = w) /\
     val TAU r = val TAU w + Rsum (map pvol o)).
Proof.
  intros Hw Ho. revert w Hw. induction Ho as [|t o [Lt Gt] _ IH]; intros w Hw; cbn [sum_volumes foldM].
  - cbn. split; [congruence|]. split; [reflexivity|lra].
  - apply wp_bind. eapply evals_bind; [apply tetvol6_spec; assumption|]. intros v Cv Wv Vv.
    eapply wp_mono; [apply (g_add ico_arith); [exact Hw|exact Wv]|]. intros w' [Cw' Vw'].
    eapply wp_mono; [apply (IH w' (canon_wf _ Cw'))|]. intros r (H1 & H2 & H3).
    split; [|split].
    + intros _. destruct o; [rewrite H2 by reflexivity; exact Cw'|apply H1; discriminate].
    + discriminate.
    + rewrite H3, Vw', Vv. cbn [map Rsum]. lra.
Qed.

Lemma obj_volume_spec o : tets o ->
  wp (obj_volume_6d (A4 o)) (fun r => exists v, r = Some v /\ canon v /\ val TAU v = Rsum (map pvol o)).
Proof.
  intros Ho. cbn [obj_volume_6d]. apply wp_bind.
  eapply wp_mono; [apply (sum_volumes_spec t0 o); [apply canon_wf, canon_t0|exact Ho]|].
  intros r (H1 & H2 & H3). cbn. exists r. split; [reflexivity|]. split.
  - destruct o; [rewrite H2 by reflexivity; apply canon_t0|apply H1; discriminate].
  - rewrite H3. rewrite val_t0. lra.
Qed.

Lemma foldM_sum_spec w os : canon w -> Forall tets os ->
  wp (foldM sum_volumes w os) (fun r => canon r /\
     val TAU r = val TAU w + Rsum (map (fun o => Rsum (map pvol o)) os)).
Proof.
  intros Hw Ho. revert w Hw. induction Ho as [|o os Hto _ IH]; intros w Hw; cbn [foldM].
  - cbn. split; [exact Hw|lra].
  - apply wp_bind. eapply wp_mono; [apply (sum_volumes_spec w o (canon_wf _ Hw) Hto)|].
    intros r (H1 & H2 & H3).
    assert (canon r) by (destruct o; [rewrite H2 by reflexivity; exact Hw|apply H1; discriminate]).
    eapply wp_mono; [apply IH; assumption|]. intros r' [C V]. split; [exact C|].
    rewrite V, H3. cbn [map Rsum]. lra.
Qed.

Lemma obj_volume5_spec os : Forall tets os ->
  wp (obj_volume_6d (A5 os)) (fun r => exists v, r = Some v /\ canon v /\
    val TAU v = Rsum (map (fun o => Rsum (map pvol o)) os)).
Proof.
  intros Ho. cbn [obj_volume_6d]. apply wp_bind.
  eapply wp_mono; [apply (foldM_sum_spec t0 os); [apply canon_t0|exact Ho]|].
  intros r (H1 & H3). cbn. exists r. split; [reflexivity|]. split; [exact H1|].
  rewrite H3. rewrite val_t0. lra.
Qed.

Lemma Rsum_app a b : Rsum (a ++ b) = Rsum a + Rsum b.
Proof. induction a; cbn; [lra|]. rewrite IHa; lra. Qed.
Lemma Rsum_perm a b : Permutation a b -> Rsum a = Rsum b.
Proof. induction 1; cbn; lra. Qed.

(** Same total, same array. *)
Lemma obj_volume_eq o o' : tets o -> tets o' -> Rsum (map pvol o) = Rsum (map pvol o') ->
  obj_volume_6d (A4 o) = obj_volume_6d (A4 o').
Proof.
  intros H H' E. pose proof (obj_volume_spec o H) as S. pose proof (obj_volume_spec o' H') as S'.
  destruct (obj_volume_6d (A4 o)) as [r|]; [|contradiction].
  destruct (obj_volume_6d (A4 o')) as [r'|]; [|contradiction]. cbn in S, S'.
  destruct S as (v & -> & C & V), S' as (v' & -> & C' & V'). do 2 f_equal.
  apply (canon_val_eq TAU); auto; [exact TAU_irrational|congruence].
Qed.

Lemma obj_volume_perm o o' : tets o -> Permutation o o' -> obj_volume_6d (A4 o) = obj_volume_6d (A4 o').
Proof.
  intros H P. apply obj_volume_eq; [exact H|apply (Permutation_Forall P H)|].
  apply Rsum_perm, Permutation_map, P.
Qed.

Lemma obj_volume_vertex_perm o o' : tets o -> Forall2 (fun t t' => Permutation t t') o o' ->
  obj_volume_6d (A4 o) = obj_volume_6d (A4 o').
Proof.
  intros H P. apply obj_volume_eq; [exact H| |].
  - clear -H P. induction P as [|t t' o o' Pt _ IH]; [constructor|].
    inversion H as [|? ? [L G] H']; subst. constructor; [|apply IH; assumption]. split.
    + rewrite <- (Permutation_length Pt); exact L.
    + apply (Permutation_Forall Pt); exact G.
  - f_equal. clear H. induction P as [|t t' o o' Pt _ IH]; [reflexivity|]. cbn [map].
    rewrite (pvol_perm _ _ Pt), IH. reflexivity.
Qed.

Lemma obj_volume_app a b : tets a -> tets b ->
  obj_volume_6d (A4 (a ++ b)) =
  bind (obj_volume_6d (A4 a)) (fun x => bind (obj_volume_6d (A4 b)) (fun y =>
    match x, y with Some x, Some y => bind (add x y) (fun z => Ok (Some z)) | _, _ => Ok None end)).
Proof.
  intros Ha Hb.
  pose proof (obj_volume_spec a Ha) as Sa. pose proof (obj_volume_spec b Hb) as Sb.
  pose proof (obj_volume_spec (a ++ b) (proj2 (Forall_app _ _ _) (conj Ha Hb))) as S.
  destruct (obj_volume_6d (A4 a)) as [ra|]; [|contradiction].
  destruct (obj_volume_6d (A4 b)) as [rb|]; [|contradiction].
  destruct (obj_volume_6d (A4 (a ++ b))) as [r|]; [|contradiction]. cbn in S, Sa, Sb.
  destruct S as (v & -> & C & V), Sa as (x & -> & Cx & Vx), Sb as (y & -> & Cy & Vy). cbn [bind].
  pose proof (g_add ico_arith x y (canon_wf _ Cx) (canon_wf _ Cy)) as Hadd.
  destruct (add x y) as [z|]; [|contradiction]. destruct Hadd as [Cz Vz]. cbn. do 2 f_equal.
  apply (canon_val_eq TAU); auto; [exact TAU_irrational|].
  rewrite Vz, Vx, Vy, V, map_app, Rsum_app. reflexivity.
Qed.

(** ** Invariance *)
Lemma pvol_ext t t' : map (vals TAU) t = map (vals TAU) t' -> pvol t = pvol t'.
Proof.
  intros E. unfold pvol. rewrite <- (map_map (vals TAU) perp t), <- (map_map (vals TAU) perp t'), E. reflexivity.
Qed.

Lemma pvol_act op c t t' : In op icosasymop -> good 6 c -> goods 6 t ->
  map (vals TAU) t' = map (fun v => act op (vals TAU c) (vals TAU v)) t ->
  pvol t' = pvol t.
Proof.
  intros Hop [Wc Lc] Ht E. destruct (icosasymop_iso op Hop) as (Mp & Mq & _ & OQ & HI).
  assert (S : square 6 op) by (apply (ig_sq _ _ icosasymop_group); exact Hop).
  set (s := vsub (perp (vals TAU c)) (matvec Mq (perp (vals TAU c)))).
  assert (Es : map (fun v => perp (vals TAU v)) t' =
    map (fun v => vadd v s) (map (matvec Mq) (map (fun v => perp (vals TAU v)) t))).
  { rewrite <- (map_map (vals TAU) perp t'), E, !map_map. apply map_ext_in. intros v Hv.
    assert (Gv : good 6 v) by (eapply Forall_forall in Ht; eassumption). destruct Gv as [Wv Lv].
    assert (Lrow : forall x, length (matvec (IZRm op) x) = 6%nat).
    { intros x. rewrite matvec_length. unfold IZRm. rewrite map_length. apply S. }
    unfold act, perp. rewrite matvec_vadd by (rewrite Lrow, vals_length; lia). 
    fold (perp (matvec (IZRm op) (vsub (vals TAU v) (vals TAU c)))).
    destruct (HI (vsub (vals TAU v) (vals TAU c))) as [_ ->]; [rewrite vsub_length; rewrite !vals_length; lia|].
    unfold perp at 1. rewrite matvec_vsub by (rewrite !vals_length; lia).
    fold (perp (vals TAU v)) (perp (vals TAU c)).
    rewrite matvec_vsub by reflexivity. unfold s.
    assert (L1 : length (matvec Mq (perp (vals TAU v))) = 3%nat) by (rewrite matvec_length; apply OQ).
    assert (L2 : length (matvec Mq (perp (vals TAU c))) = 3%nat) by (rewrite matvec_length; apply OQ).
    assert (L3 : length (perp (vals TAU c)) = 3%nat) by reflexivity.
    revert L1 L2 L3. generalize (matvec Mq (perp (vals TAU v))) as a.
    generalize (matvec Mq (perp (vals TAU c))) as b. generalize (perp (vals TAU c)) as d.
    clear. intros d b a La Lb Ld. l3 a; l3 b; l3 d.
    unfold vadd, vsub; cbn [zipWith]. repeat (apply f_equal2; [ring|]). reflexivity. }
  unfold pvol. rewrite Es. rewrite tetvol_translate, tetvol_orthogonal; auto.
  - apply perp_len.
  - unfold s. rewrite vsub_length; [reflexivity|]. rewrite matvec_length. symmetry; apply OQ.
  - apply Forall_forall. intros x Hx. apply in_map_iff in Hx as (y & <- & _). rewrite matvec_length. apply OQ.
Qed.

Lemma pvol_shift s t t' : good 6 s -> goods 6 t ->
  map (vals TAU) t' = map (fun v => vadd (vals TAU v) (vals TAU s)) t ->
  pvol t' = pvol t.
Proof.
  intros [Ws Ls] Ht E. unfold pvol.
  rewrite <- (map_map (vals TAU) perp t'), E, map_map.
  rewrite (map_ext_in _ (fun v => vadd (perp (vals TAU v)) (perp (vals TAU s)))).
  - rewrite <- (map_map (fun v => perp (vals TAU v)) (fun x => vadd x (perp (vals TAU s)))).
    apply tetvol_translate; [reflexivity|apply perp_len].
  - intros v Hv. assert (Gv : good 6 v) by (eapply Forall_forall in Ht; eassumption). destruct Gv as [Wv Lv].
    unfold perp. apply matvec_vadd. rewrite !vals_length; lia.
Qed.

Lemma tets_goodo o : tets o -> goodo 6 o.
Proof. apply Forall_impl. intros t [_ H]; exact H. Qed.

Lemma map_shape {A B C D} (f : A -> C) (g : B -> C) (o : list (list A)) (o' : list (list B)) (h : list A -> D) :
  map (map f) o = map (map g) o' -> map (@length A) o = map (@length B) o'.
Proof.
  intros E. apply (f_equal (map (@length C))) in E. rewrite !map_map in E.
  rewrite (map_ext _ (@length A)) in E by (intros; apply map_length).
  rewrite (map_ext (fun x => length (map g x)) (@length B)) in E by (intros; apply map_length). exact E.
Qed.

Lemma tets_from (f : vec -> list R) o o' : tets o -> cgoodo 6 o' ->
  map (map (vals TAU)) o' = map (map f) o -> tets o'.
Proof.
  intros H C. revert o' C. induction H as [|t o [L G] _ IH]; intros [|t' o'] C E; cbn in E; try discriminate; constructor.
  - injection E as E1 E2. split.
    + apply (f_equal (@length _)) in E1. rewrite !map_length in E1. lia.
    + apply cgoods_goods. apply (Forall_inv C).
  - injection E as E1 E2. apply IH; [apply (Forall_inv_tail C)|exact E2].
Qed.

Lemma obj_volume_shift o s r : tets o -> good 6 s -> shift (A4 o) s = Ok (Some r) ->
  tets r /\ obj_volume_6d (A4 r) = obj_volume_6d (A4 o).
Proof.
  intros Ho Hs E. pose proof (shift_spec ico_arith o s 6 (tets_goodo _ Ho) Hs) as S.
  change (shift_object_ add (A4 o) s) with (shift (A4 o) s) in S. rewrite E in S. cbn in S.
  destruct S as (r' & [= <-] & C & V).
  assert (Hr : tets r) by (eapply tets_from; eassumption). split; [exact Hr|].
  apply obj_volume_eq; [exact Hr|exact Ho|].
  f_equal. clear E Hr. revert r C V. induction Ho as [|t o [L G] _ IH]; intros [|t' r] C V; cbn in V; try discriminate; [reflexivity|].
  injection V as V1 V2. cbn [map]. f_equal; [apply (pvol_shift s); assumption|].
  apply IH; [apply (Forall_inv_tail C)|exact V2].
Qed.

Lemma pvol_obj_act op c o o' : In op icosasymop -> good 6 c -> tets o ->
  map (map (vals TAU)) o' = map (map (fun v => act op (vals TAU c) (vals TAU v))) o ->
  map pvol o' = map pvol o.
Proof.
  intros Hop Hc Ho. revert o'. induction Ho as [|t o [L G] _ IH]; intros [|t' r] V; cbn in V; try discriminate; [reflexivity|].
  injection V as V1 V2. cbn [map]. f_equal; [apply (pvol_act op c); assumption|]. apply IH; exact V2.
Qed.

Lemma obj_volume_symop op c o r : In op icosasymop -> good 6 c -> tets o ->
  symop_obj op (A4 o) c = Ok (Some (A4 r)) ->
  tets r /\ obj_volume_6d (A4 r) = obj_volume_6d (A4 o).
Proof.
  intros Hop Hc Ho E.
  assert (S : square 6 op) by (apply (ig_sq _ _ icosasymop_group); exact Hop).
  pose proof (symop_obj4_spec ico_arith op o c 6 ltac:(lia) S (tets_goodo _ Ho) Hc) as HS.
  unfold symop_obj in E. cbn [symop_obj_] in E.
  destruct (mapM (fun vts => symop_vecs_ add mul op vts c) o) as [r0|]; [|discriminate].
  cbn in E. injection E as ->. destruct HS as [C V].
  assert (Hr : tets r) by (eapply tets_from; eassumption). split; [exact Hr|].
  apply obj_volume_eq; [exact Hr|exact Ho|]. f_equal. apply (pvol_obj_act op c); assumption.
Qed.

Lemma Rsum_repeat_concat (l : list (list R)) x : Forall (fun y => Rsum y = x) l ->
  Rsum (concat l) = INR (length l) * x.
Proof.
  induction 1 as [|y l Hy _ IH]; cbn [concat]; [cbn; lra|].
  rewrite Rsum_app, IH, Hy. cbn [length]. rewrite S_INR. lra.
Qed.

Lemma obj_volume_symmetric o c r : tets o -> good 6 c ->
  symmetric (A4 o) c = Ok (Some (A4 r)) ->
  tets r /\ Rsum (map pvol r) = 120 * Rsum (map pvol o).
Proof.
  intros Ho Hc E. cbn [symmetric] in E. unfold generator_obj_symmetric_obj in E. cbn [generator_obj_symmetric_obj_] in E.
  pose proof (blocks_spec ico_arith 6 icosasymop icosasymop_group icosasymop o c (ig_sq _ _ icosasymop_group) (tets_goodo _ Ho) Hc) as HB.
  destruct (mapM (fun op0 => mapM (fun vts => symop_vecs_ add mul op0 vts c) o) icosasymop) as [bs|]; [|discriminate].
  cbn in E, HB. injection E as <-.
  assert (F : forall l bs, (forall op, In op l -> In op icosasymop) ->
     Forall2 (fun op b => mapM (fun vts => symop_vecs_ add mul op vts c) o = Ok b
            /\ cgoodo 6 b
            /\ map (map (vals TAU)) b = map (map (fun v => act op (vals TAU c) (vals TAU v))) o) l bs ->
     tets (concat bs) /\ Forall (fun y => Rsum y = Rsum (map pvol o)) (map (map pvol) bs)).
  { clear HB bs. intros l bs Hl HF. induction HF as [|op b l bs (_ & C & V) _ IH]; [split; constructor|].
    destruct IH as [I1 I2]; [intros; apply Hl; right; assumption|]. split.
    - cbn [concat]. apply Forall_app. split; [exact (tets_from (fun v => act op (vals TAU c) (vals TAU v)) o b Ho C V)|exact I1].
    - cbn [map]. constructor; [|exact I2]. f_equal. apply (pvol_obj_act op c); auto. apply Hl; left; reflexivity. }
  destruct (F icosasymop bs (fun _ H => H) HB) as [F1 F2]. split; [exact F1|].
  rewrite concat_map, (Rsum_repeat_concat _ _ F2), map_length.
  apply Forall2_len in HB. rewrite <- HB, icosasymop_length.
  rewrite INR_IZR_INZ. reflexivity.
Qed.
