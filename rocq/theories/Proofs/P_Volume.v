(** Volumes, shifts, centroids of ico2: C15, C16, C17, C18. *)
From Coq Require Import Reals List ZArith Lia Lra Bool Permutation.
From Verif Require Import Base.Res Model.Tau Model.Arr Model.IcoScalar Model.Vectors Model.IcoMath1 Model.IcoSymmetry
  Model.IcoVolume Spec.Value Spec.RVec Spec.Shape Spec.Mean Spec.Geometry Spec.IcoSpec.

From Verif Require Import Proofs.ResLemmas Proofs.ValueLemmas Proofs.Irrational Proofs.ScalarLemmas Proofs.RVecLemmas
  Proofs.VectorLemmas Proofs.VectorLemmas2 Proofs.MatLemmas Proofs.SymopLemmas Proofs.MeanLemmas Proofs.IcoProj Proofs.MatDec
  Proofs.GroupLemmas Proofs.IcoGroup Proofs.GeomLemmas Proofs.IcoVolumeLemmas.
Import ListNotations.
Local Open Scope R_scope.
Local Opaque icosasymop.

(** C15: the volume of the projected tetrahedron, exactly. *)
Lemma L_C15_exact : forall p0 p1 p2 p3, goods 6 [p0;p1;p2;p3] ->
  exists v, tetrahedron_volume_6d (A3 [p0;p1;p2;p3]) = Ok (Some v) /\ canon v /\
    let P := fun q => perp (vals TAU q) in
    val TAU v = Rabs (det3 (vsub (P p1) (P p0)) (vsub (P p2) (P p0)) (vsub (P p3) (P p0))) / 6.
Proof.
  intros p0 p1 p2 p3 H. pose proof (tetvol6_spec [p0;p1;p2;p3] eq_refl H) as S.
  apply wp_elim in S as (v & E & C & V). exists v. cbn [tetrahedron_volume_6d]. rewrite E.
  split; [reflexivity|]. split; [exact C|]. exact V.
Qed.

(** det3 is the 3x3 determinant. *)
Lemma L_C15_det3 : forall a b c d e f g h i,
  det3 [a;b;c] [d;e;f] [g;h;i] = a*(e*i-f*h) - b*(d*i-f*g) + c*(d*h-e*g).
Proof. intros. unfold det3, dot. cbn. ring. Qed.

(** Non-negative; zero iff the four projections are coplanar. *)
Lemma L_C15_nonneg_zero : forall p0 p1 p2 p3 v, goods 6 [p0;p1;p2;p3] ->
  tetrahedron_volume_6d (A3 [p0;p1;p2;p3]) = Ok (Some v) ->
  0 <= val TAU v /\
  (v = t0 <-> coplanar (map (fun q => perp (vals TAU q)) [p0;p1;p2;p3])).
Proof.
  intros p0 p1 p2 p3 v H E. pose proof (tetvol6_spec [p0;p1;p2;p3] eq_refl H) as S.
  cbn [tetrahedron_volume_6d] in E. apply bind_Ok_inv in E as (v' & E & [= ->]). rewrite E in S. destruct S as [C V].
  split; [rewrite V; apply tetvol_nonneg|]. cbn [map]. rewrite <- tetvol_zero by (exact (perp_len [p0;p1;p2;p3])).
  change (tetvol _) with (pvol [p0;p1;p2;p3]). rewrite <- V. split.
  - intros ->. apply val_t0.
  - intros Z. apply (canon_val_eq TAU); [exact TAU_irrational|exact C|apply canon_t0|]. rewrite Z. symmetry; apply val_t0.
Qed.

(** Independent of the order of the vertices, as the same array. *)
Lemma L_C15_vertex_order : forall t t', length t = 4%nat -> goods 6 t -> Permutation t t' ->
  tetrahedron_volume_6d (A3 t) = tetrahedron_volume_6d (A3 t').
Proof.
  intros t t' L H P. cbn [tetrahedron_volume_6d]. rewrite (tetvol6_perm t t' L H P). reflexivity.
Qed.

(** Unchanged by translation and by the 120 operations, as the same array. *)
Lemma L_C15_translation : forall t s t', length t = 4%nat -> goods 6 t -> good 6 s ->
  Forall2 (fun v v' => add_vectors v s = Ok v') t t' ->
  tetrahedron_volume_6d (A3 t') = tetrahedron_volume_6d (A3 t).
Proof.
  intros t s t' L H Hs F.
  assert (G : goods 6 t' /\ map (vals TAU) t' = map (fun v => vadd (vals TAU v) (vals TAU s)) t).
  { clear L. revert H. induction F as [|v v' t t' Ev _ IH]; intros H; [split; [constructor|reflexivity]|].
    destruct (Forall_inv H) as [Wv Lv]. destruct Hs as [Ws Ls].
    pose proof (add_vectors_spec ico_arith v s Wv Ws ltac:(lia)) as S.
    unfold add_vectors in Ev. rewrite Ev in S. destruct S as [C V].
    destruct (IH (Forall_inv_tail H)) as [I1 I2]. split.
    - constructor; [|exact I1]. split; [apply canonv_wfv, C|].
      rewrite <- (vals_length TAU), V, vadd_length; rewrite !vals_length; lia.
    - cbn [map]. rewrite V, I2. reflexivity. }
  destruct G as [G1 G2]. cbn [tetrahedron_volume_6d]. f_equal.
  enough (tetrahedron_volume_6d_3 t' = tetrahedron_volume_6d_3 t) as -> by reflexivity.
  apply (evals_det (x := pvol t) TAU_irrational); [|apply tetvol6_spec; assumption].
  rewrite <- (pvol_shift s t t' Hs H G2). apply tetvol6_spec; [|exact G1].
  apply Forall2_len in F. lia.
Qed.

Lemma L_C15_symmetry : forall op t c t', In op icosasymop -> length t = 4%nat -> goods 6 t -> good 6 c ->
  symop_obj op (A3 t) c = Ok (Some (A3 t')) ->
  tetrahedron_volume_6d (A3 t') = tetrahedron_volume_6d (A3 t).
Proof.
  intros op t c t' Hop L H Hc E.
  pose proof (symop_vecs_spec ico_arith op t c 6 ltac:(lia) (ig_sq _ _ icosasymop_group op Hop) H Hc) as S.
  unfold symop_obj in E. cbn [symop_obj_] in E. apply bind_Ok_inv in E as (r & E & [= ->]). rewrite E in S.
  destruct S as [C V]. cbn [tetrahedron_volume_6d].
  enough (tetrahedron_volume_6d_3 t' = tetrahedron_volume_6d_3 t) as -> by reflexivity.
  apply (evals_det (x := pvol t) TAU_irrational); [|apply tetvol6_spec; assumption].
  rewrite <- (pvol_act op c t t' Hop Hc H V). apply tetvol6_spec; [|apply cgoods_goods, C].
  apply mapM_length in E. lia.
Qed.

Example E_C15_ex :
  let t := [[t0;t0;t0;t0;t0;t0]; [t1;t0;t0;t0;t0;t0]; [t0;t1;t0;t0;t0;t0]; [t0;t0;t1;t0;t0;T 0 1 2]] in
  goods 6 t /\ tetrahedron_volume_6d (A3 t) = Ok (Some (T (-1) 1 6)) /\
  tetrahedron_volume_6d (A3 (rev t)) = Ok (Some (T (-1) 1 6)).
Proof.
  cbn zeta. split; [|split; vm_compute; reflexivity].
  repeat (apply Forall_cons; [split; [repeat (apply Forall_cons; [unfold wf; cbn; lia|]); apply Forall_nil|reflexivity]|]);
  apply Forall_nil.
Qed.

(** C16: the object volume is the sum of the volumes of its tetrahedra. *)
Lemma L_C16_sum : forall o, tets o ->
  exists v, volume (A4 o) = Ok (Some v) /\ canon v /\ val TAU v = Rsum (map pvol o).
Proof. intros o Ho. pose proof (obj_volume_spec o Ho) as S. apply wp_elim in S as (x & E & v & -> & H). exists v. auto. Qed.

(** pvol, in terms of the single-tetrahedron function. *)
Lemma L_C16_pvol : forall t v, length t = 4%nat -> goods 6 t ->
  tetrahedron_volume_6d (A3 t) = Ok (Some v) -> val TAU v = pvol t.
Proof.
  intros t v L H E. pose proof (tetvol6_spec t L H) as S. cbn [tetrahedron_volume_6d] in E.
  apply bind_Ok_inv in E as (v' & E & [= ->]). rewrite E in S. apply S.
Qed.

(** A list of objects (5-d array): the sum over all objects. *)
Lemma L_C16_nested : forall os, Forall tets os ->
  exists v, volume (A5 os) = Ok (Some v) /\ canon v /\ val TAU v = Rsum (map (fun o => Rsum (map pvol o)) os).
Proof. intros os Ho. pose proof (obj_volume5_spec os Ho) as S. apply wp_elim in S as (x & E & v & -> & H). exists v. auto. Qed.

Lemma L_C16_append : forall a b va vb vab, tets a -> tets b ->
  volume (A4 a) = Ok (Some va) -> volume (A4 b) = Ok (Some vb) -> add va vb = Ok vab ->
  volume (A4 (a ++ b)) = Ok (Some vab).
Proof.
  intros a b va vb vab Ha Hb Ea Eb Es. unfold volume in *. rewrite (obj_volume_app a b Ha Hb), Ea, Eb.
  cbn [bind]. rewrite Es. reflexivity.
Qed.

Lemma L_C16_order : forall o o', tets o -> Permutation o o' -> volume (A4 o) = volume (A4 o').
Proof. exact obj_volume_perm. Qed.

Lemma L_C16_vertex_order : forall o o', tets o -> Forall2 (fun t t' => Permutation t t') o o' ->
  volume (A4 o) = volume (A4 o').
Proof. exact obj_volume_vertex_perm. Qed.

Lemma L_C16_symmetric : forall o c r v, tets o -> good 6 c -> symmetric (A4 o) c = Ok (Some (A4 r)) ->
  volume (A4 o) = Ok (Some v) ->
  exists v', volume (A4 r) = Ok (Some v') /\ canon v' /\ val TAU v' = 120 * val TAU v.
Proof.
  intros o c r v Ho Hc E Ev. destruct (obj_volume_symmetric o c r Ho Hc E) as [Hr S].
  destruct (L_C16_sum r Hr) as (v' & Ev' & C & V). exists v'. split; [exact Ev'|]. split; [exact C|].
  destruct (L_C16_sum o Ho) as (v2 & Ev2 & _ & V2). rewrite Ev in Ev2. injection Ev2 as <-. rewrite V, V2. exact S.
Qed.

Lemma L_C16_shift : forall o s r, tets o -> good 6 s -> shift (A4 o) s = Ok (Some r) ->
  volume (A4 r) = volume (A4 o).
Proof. intros o s r Ho Hs E. apply (obj_volume_shift o s r Ho Hs E). Qed.

Lemma L_C16_symop : forall op c o r, In op icosasymop -> good 6 c -> tets o ->
  symop_obj op (A4 o) c = Ok (Some (A4 r)) -> volume (A4 r) = volume (A4 o).
Proof. intros op c o r Hop Hc Ho E. apply (obj_volume_symop op c o r Hop Hc Ho E). Qed.

Example E_C16_ex :
  let t := [[t0;t0;t0;t0;t0;t0]; [t1;t0;t0;t0;t0;t0]; [t0;t1;t0;t0;t0;t0]; [t0;t0;t1;t0;t0;T 0 1 2]] in
  let u := [[t0;t0;t0;t0;t0;t0]; [t1;t0;t0;t0;t0;t0]; [t0;t1;t0;t0;t0;t0]; [t0;t0;t1;t0;t0;t0]] in
  tets [t;u] /\ volume (A4 [t]) = Ok (Some (T (-1) 1 6)) /\ volume (A4 [u]) = Ok (Some (T 0 1 3)) /\
  volume (A4 [t;u]) = Ok (Some (T (-1) 3 6)).
Proof.
  cbn zeta. split; [|split; [|split]; vm_compute; reflexivity].
  repeat (apply Forall_cons; [split; [reflexivity|
    repeat (apply Forall_cons; [split; [repeat (apply Forall_cons; [unfold wf; cbn; lia|]); apply Forall_nil|reflexivity]|]);
    apply Forall_nil]|]); apply Forall_nil.
Qed.

(** C17: shift adds the vector to every vertex, keeping shape and order. *)
Lemma L_C17_exact : forall o s, goodo 6 o -> good 6 s ->
  exists r, shift (A4 o) s = Ok (Some r) /\ cgoodo 6 r /\
    Forall2 (Forall2 (fun v v' => add_vectors v s = Ok v')) o r /\
    map (map (vals TAU)) r = map (map (fun v => vadd (vals TAU v) (vals TAU s))) o.
Proof.
  intros o s Ho Hs. pose proof (shift_spec ico_arith o s 6 Ho Hs) as S.
  apply wp_elim in S as (x & E & r & -> & C & V). exists r. split; [exact E|]. split; [exact C|]. split; [|exact V].
  cbn [shift_object_] in E. apply bind_Ok_inv in E as (r' & E & [= ->]).
  apply mapM_Forall2 in E. eapply Forall2_impl; [|exact E]. intros vs rs Hr. apply mapM_Forall2. exact Hr.
Qed.

(** Shifting by u and then by v is shifting by u+v. *)
Lemma L_C17_compose : forall o u v s r1 r2, goodo 6 o -> good 6 u -> good 6 v -> add_vectors u v = Ok s ->
  shift (A4 o) u = Ok (Some r1) -> shift (A4 r1) v = Ok (Some r2) -> shift (A4 o) s = Ok (Some r2).
Proof.
  intros o u v s r1 r2 Ho Hu Hv Es E1 E2.
  destruct (L_C17_exact o u Ho Hu) as (x & E1' & C1 & _ & V1). rewrite E1 in E1'. injection E1' as <-.
  destruct (L_C17_exact r1 v (cgoodo_goodo _ _ C1) Hv) as (x & E2' & C2 & _ & V2). rewrite E2 in E2'. injection E2' as <-.
  destruct Hu as [Wu Lu], Hv as [Wv Lv].
  pose proof (add_vectors_spec ico_arith u v Wu Wv ltac:(lia)) as S. unfold add_vectors in Es. rewrite Es in S.
  destruct S as [Cs Vs].
  assert (Hs : good 6 s).
  { split; [apply canonv_wfv, Cs|]. rewrite <- (vals_length TAU), Vs, vadd_length; rewrite !vals_length; lia. }
  destruct (L_C17_exact o s Ho Hs) as (x & E3 & C3 & _ & V3). rewrite E3. do 2 f_equal.
  apply (cgoodo_det ico_arith 6); [exact C3|exact C2|]. rewrite V3, V2, Vs.
  replace (map (map (fun v0 => vadd (vals TAU v0) (vals TAU v))) r1)
    with (map (map (fun x => vadd x (vals TAU v))) (map (map (vals TAU)) r1))
    by (rewrite map_map; apply map_ext; intros; rewrite map_map; reflexivity).
  rewrite V1, map_map. apply map_ext. intros t. rewrite map_map. apply map_ext. intros q.
  symmetry. apply vadd_assoc.
Qed.

(** Shifting back by -v restores a canonical object bit for bit. *)
Lemma L_C17_undo : forall o u u' r, cgoodo 6 o -> good 6 u -> mul_vector u (T (-1) 0 1) = Ok u' ->
  shift (A4 o) u = Ok (Some r) -> shift (A4 r) u' = Ok (Some o).
Proof.
  intros o u u' r Ho Hu Eu E1.
  destruct (L_C17_exact o u (cgoodo_goodo _ _ Ho) Hu) as (x & E1' & C1 & _ & V1). rewrite E1 in E1'. injection E1' as <-.
  destruct Hu as [Wu Lu].
  pose proof (mul_vector_spec ico_arith u (T (-1) 0 1) Wu ltac:(unfold wf; cbn; lia)) as S.
  unfold mul_vector in Eu. rewrite Eu in S. destruct S as [Cs Vs].
  assert (Hs : good 6 u').
  { split; [apply canonv_wfv, Cs|]. rewrite <- (vals_length TAU), Vs, vscale_length, vals_length; exact Lu. }
  destruct (L_C17_exact r u' (cgoodo_goodo _ _ C1) Hs) as (x & E3 & C3 & _ & V3). rewrite E3. do 2 f_equal.
  apply (cgoodo_det ico_arith 6); [exact C3|exact Ho|]. rewrite V3.
  replace (map (map (fun v0 => vadd (vals TAU v0) (vals TAU u'))) r)
    with (map (map (fun x => vadd x (vals TAU u'))) (map (map (vals TAU)) r))
    by (rewrite map_map; apply map_ext; intros; rewrite map_map; reflexivity).
  rewrite V1, map_map. apply map_ext_in. intros t Ht. rewrite map_map. apply map_ext_in. intros q Hq.
  rewrite Vs. replace (val TAU (T (-1) 0 1)) with (-1) by (unfold val; cbn; lra).
  rewrite vadd_assoc.
  assert (L : length (vals TAU q) = length (vals TAU u)).
  { rewrite !vals_length, Lu. unfold cgoodo, cgoods in Ho. rewrite Forall_forall in Ho. specialize (Ho t Ht).
    rewrite Forall_forall in Ho. apply (Ho q Hq). }
  revert L. generalize (vals TAU u) as y. generalize (vals TAU q) as z.
  induction z as [|a z IH]; intros [|b y] L; cbn in L |- *; try discriminate; [reflexivity|].
  f_equal; [ring|]. apply IH. lia.
Qed.

Lemma L_C17_other_ndim : forall a s, match a with A4 _ => False | _ => True end -> shift a s = Ok None.
Proof. intros [] s H; try contradiction; reflexivity. Qed.

Example E_C17_ex :
  let o := [[[T 1 1 2;t0;t0;t0;t0;t0]; [t1;t0;t0;t0;t0;t0]]] in
  let s := [T 1 0 2; t0; t0; T 0 1 1; t0; t0] in
  cgoodo 6 o /\ good 6 s /\ shift (A4 o) s =
    Ok (Some [[[T 2 1 2;t0;t0;T 0 1 1;t0;t0]; [T 3 0 2;t0;t0;T 0 1 1;t0;t0]]]).
Proof.
  cbn zeta. split; [|split; [|vm_compute; reflexivity]].
  - repeat (apply Forall_cons; [repeat (apply Forall_cons;
      [split; [repeat (apply Forall_cons; [split; reflexivity|]); apply Forall_nil|reflexivity]|]); apply Forall_nil|]); apply Forall_nil.
  - split; [repeat (apply Forall_cons; [unfold wf; cbn; lia|]); apply Forall_nil|reflexivity].
Qed.

(** C18: the centroid is the exact mean. *)
Lemma L_C18_mean : forall pts, pts <> [] -> goods 6 pts ->
  evalsv TAU (centroid pts) (mean 6 (map (vals TAU) pts)).
Proof. exact (centroid_spec ico_arith). Qed.

Lemma L_C18_order : forall pts pts', pts <> [] -> goods 6 pts -> Permutation pts pts' ->
  centroid pts = centroid pts'.
Proof.
  intros pts pts' Hne H P. apply (evalsv_det (x := mean 6 (map (vals TAU) pts)) TAU_irrational).
  - apply L_C18_mean; assumption.
  - rewrite (mean_perm 6 _ _ (Permutation_map _ P)). apply L_C18_mean.
    + intros ->. apply Permutation_sym, Permutation_nil in P. contradiction.
    + apply (Permutation_Forall P H).
Qed.

Lemma L_C18_translation : forall pts s pts' c, pts <> [] -> goods 6 pts -> good 6 s ->
  Forall2 (fun v v' => add_vectors v s = Ok v') pts pts' -> centroid pts = Ok c ->
  centroid pts' = add_vectors c s.
Proof.
  intros t s t' c Hne H Hs F Ec.
  assert (G : goods 6 t' /\ map (vals TAU) t' = map (fun v => vadd v (vals TAU s)) (map (vals TAU) t)).
  { clear Hne Ec. revert H. induction F as [|v v' t t' Ev _ IH]; intros H; [split; [constructor|reflexivity]|].
    destruct (Forall_inv H) as [Wv Lv]. destruct Hs as [Ws Ls].
    pose proof (add_vectors_spec ico_arith v s Wv Ws ltac:(lia)) as S.
    unfold add_vectors in Ev. rewrite Ev in S. destruct S as [C V].
    destruct (IH (Forall_inv_tail H)) as [I1 I2]. split.
    - constructor; [|exact I1]. split; [apply canonv_wfv, C|].
      rewrite <- (vals_length TAU), V, vadd_length; rewrite !vals_length; lia.
    - cbn [map]. rewrite V, I2. reflexivity. }
  destruct G as [G1 G2]. destruct Hs as [Ws Ls].
  assert (LL : Forall (fun v => length v = 6%nat) (map (vals TAU) t)).
  { apply Forall_forall. intros x Hx. apply in_map_iff in Hx as (v & <- & Hv). rewrite vals_length.
    unfold goods in H. rewrite Forall_forall in H. apply (H v Hv). }
  pose proof (L_C18_mean t Hne H) as S. rewrite Ec in S. destruct S as [Cc Vc].
  apply (evalsv_det (x := vadd (mean 6 (map (vals TAU) t)) (vals TAU s)) TAU_irrational).
  - rewrite <- mean_translate.
    + rewrite <- G2. apply L_C18_mean; [|exact G1]. intros ->. inversion F; subst; contradiction.
    + intros E. apply map_eq_nil in E. contradiction.
    + exact LL.
    + rewrite vals_length; exact Ls.
  - rewrite <- Vc. apply (add_vectors_spec ico_arith); [apply canonv_wfv, Cc|exact Ws|].
    rewrite <- (vals_length TAU c), Vc, mean_length by exact LL. lia.
Qed.

Lemma L_C18_symmetry : forall op ctr pts pts' c, In op icosasymop -> pts <> [] -> goods 6 pts -> good 6 ctr ->
  symop_obj op (A3 pts) ctr = Ok (Some (A3 pts')) -> centroid pts = Ok c ->
  centroid pts' = symop_vec op c ctr.
Proof.
  intros op ctr t t' c Hop Hne H Hc E Ec. pose proof (ig_sq _ _ icosasymop_group op Hop) as Sq.
  pose proof (symop_vecs_spec ico_arith op t ctr 6 ltac:(lia) Sq H Hc) as S.
  unfold symop_obj in E. cbn [symop_obj_] in E. apply bind_Ok_inv in E as (r & E & [= ->]). rewrite E in S.
  destruct S as [C V]. destruct Hc as [Wc Lc].
  assert (LL : Forall (fun v => length v = 6%nat) (map (vals TAU) t)).
  { apply Forall_forall. intros x Hx. apply in_map_iff in Hx as (v & <- & Hv). rewrite vals_length.
    unfold goods in H. rewrite Forall_forall in H. apply (H v Hv). }
  pose proof (L_C18_mean t Hne H) as S. rewrite Ec in S. destruct S as [Cc Vc].
  apply (evalsv_det (x := act op (vals TAU ctr) (mean 6 (map (vals TAU) t))) TAU_irrational).
  - rewrite <- (mean_act op _ 6).
    + rewrite map_map, <- V. apply L_C18_mean; [|apply cgoods_goods, C].
      intros ->. apply mapM_length in E. destruct t; [contradiction|discriminate].
    + intros E'. apply map_eq_nil in E'. contradiction.
    + exact Sq.
    + exact LL.
    + rewrite vals_length; exact Lc.
  - rewrite <- Vc. apply (symop_vec_spec ico_arith op c ctr 6); auto; try lia; [apply canonv_wfv, Cc|].
    rewrite <- (vals_length TAU c), Vc, mean_length by exact LL. reflexivity.
Qed.

Lemma L_C18_empty : centroid [] = Raise ValueError /\ centroid_obj [] = Raise ValueError.
Proof. split; reflexivity. Qed.

Lemma L_C18_object : forall o, o <> [] -> Forall (fun t => t <> [] /\ goods 6 t) o ->
  evalsv TAU (centroid_obj o) (mean 6 (map (fun t => mean 6 (map (vals TAU) t)) o)).
Proof. exact (centroid_obj_spec ico_arith). Qed.

Example E_C18_ex :
  let p := [[t1;t0;T 0 1 1;t0;t0;t0]; [t0;t1;t0;t0;t0;t0]; [T 1 1 2;t0;t1;t0;t0;t0]] in
  goods 6 p /\ centroid p = Ok [T 3 1 6; T 1 0 3; T 1 1 3; t0; t0; t0].
Proof.
  cbn zeta. split; [|vm_compute; reflexivity].
  repeat (apply Forall_cons; [split; [repeat (apply Forall_cons; [unfold wf; cbn; lia|]); apply Forall_nil|reflexivity]|]);
  apply Forall_nil.
Qed.
