(** Dodecagonal projection, group, similarity, areas: C47, C48, C49, C50. *)
From Coq Require Import Reals List ZArith Lia Lra Bool Permutation.
From Verif Require Import Base.Res Model.Tau Model.Arr Model.DodeScalar Model.Vectors Model.IcoMath1 Model.DodeMath1
  Model.DodeSymmetry Model.DodeArea Spec.Value Spec.RVec Spec.Shape Spec.IcoSpec Spec.DodeSpec.

From Verif Require Import Proofs.ResLemmas Proofs.ValueLemmas Proofs.Irrational Proofs.ScalarLemmas Proofs.RVecLemmas
  Proofs.VectorLemmas Proofs.MatLemmas Proofs.SymopLemmas Proofs.IcoProj Proofs.MatDec Proofs.GroupLemmas Proofs.IcoGroup
  Proofs.IcoVolumeLemmas Proofs.DodeProj Proofs.DodeGroup Proofs.DodeAreaLemmas.
Import ListNotations.
Local Open Scope R_scope.
Local Opaque dodesymop.

(** C47: projection returns exactly the documented linear maps; projection3 is its
    second half; projection_perp returns None. *)
Lemma L_C47_exact : forall v, good 6 v ->
  exists e i, dprojection v = Ok (e, i) /\ canonv e /\ canonv i /\
    vals SIN e = dpar (vals SIN v) /\ vals SIN i = dperp (vals SIN v) /\ dprojection3 v = Ok i.
Proof.
  intros v Hv. pose proof (dprojection_spec v Hv) as S. apply wp_elim in S as ([e i] & E & C1 & C2 & V1 & V2).
  exists e, i. cbn [fst snd] in *. repeat (split; [assumption|]). apply (dprojection3_snd v e i Hv E).
Qed.

Lemma L_C47_linear : forall k l x y, length x = 6%nat -> length y = 6%nat ->
  dpar (vadd (vscale k x) (vscale l y)) = vadd (vscale k (dpar x)) (vscale l (dpar y)) /\
  dperp (vadd (vscale k x) (vscale l y)) = vadd (vscale k (dperp x)) (vscale l (dperp y)).
Proof. intros. split; [apply dpar_linear|apply dperp_linear]; assumption. Qed.

(** The two halves together determine the vector. *)
Lemma L_C47_injective : forall u v, good 6 u -> good 6 v -> dprojection u = dprojection v ->
  vals SIN u = vals SIN v.
Proof.
  intros u v Hu Hv E. destruct (L_C47_exact u Hu) as (e & i & Eu & _ & _ & V1 & V2 & _).
  destruct (L_C47_exact v Hv) as (e' & i' & Ev & _ & _ & W1 & W2 & _).
  rewrite E, Ev in Eu. injection Eu as -> ->.
  apply dproj_injective; try (rewrite vals_length; first [apply Hu|apply Hv]); congruence.
Qed.

(** Vectors with rational coordinates: same perpendicular projection iff the first
    four coordinates and the sixth agree. *)
Lemma L_C47_separates : forall u v, good 6 u -> good 6 v ->
  Forall (fun t => tb t = 0%Z) u -> Forall (fun t => tb t = 0%Z) v ->
  (dprojection3 u = dprojection3 v <->
   firstn 4 (vals SIN u) = firstn 4 (vals SIN v) /\ nth 5 (vals SIN u) 0 = nth 5 (vals SIN v) 0).
Proof.
  intros u v Hu Hv Ru Rv.
  assert (R : forall x, good 6 x -> Forall (fun t => tb t = 0%Z) x -> Forall rational (vals SIN x)).
  { intros x [Wx _] Rx. apply Forall_forall. intros y Hy. apply in_map_iff in Hy as (t & <- & Ht).
    unfold wfv in Wx. rewrite Forall_forall in Rx, Wx. exists (ta t), (tc t). split; [apply Wx, Ht|].
    unfold val. rewrite (Rx t Ht). unfold Rdiv. ring. }
  rewrite <- dperp_rational_inj; try (rewrite vals_length; first [apply Hu|apply Hv]); try (apply R; assumption).
  split; intros E.
  - pose proof (dprojection3_spec u Hu) as Su. pose proof (dprojection3_spec v Hv) as Sv.
    rewrite <- E in Sv. apply wp_elim in Su as (p & Ep & _ & Vp). rewrite Ep in Sv. destruct Sv as [_ Vq].
    congruence.
  - apply (evalsv_det (x := dperp (vals SIN u)) SIN_irrational); [apply dprojection3_spec, Hu|].
    rewrite E. apply dprojection3_spec, Hv.
Qed.

Lemma L_C47_projection_perp : forall a, dprojection_perp a = Ok None.
Proof. reflexivity. Qed.

Example E_C47_ex :
  let v := [T 1 0 2; T 0 1 1; t0; T 1 1 3; T 5 0 1; t1] in
  good 6 v /\
  dprojection v = Ok ([T (-1) 8 6; T 0 1 3; T 5 0 1], [T (-1) 2 6; T (-3) (-2) 6; T 1 0 1]) /\
  dprojection3 [t1;t0;t0;t0;T 7 0 1;t0] = dprojection3 [t1;t0;t0;t0;t0;t0].
Proof.
  cbn zeta. split; [split; [repeat (apply Forall_cons; [unfold wf; cbn; lia|]); apply Forall_nil|reflexivity]|].
  split; vm_compute; reflexivity.
Qed.

(** C48: 24 pairwise different matrices, identity first, closed under product and
    inverse. *)
Lemma L_C48_group :
  length dodesymop = 24%nat /\ NoDup dodesymop /\ nth_error dodesymop 0 = Some (identity 6) /\
  (forall a, In a dodesymop -> square 6 a) /\
  (forall a b, In a dodesymop -> In b dodesymop -> In (matmul a b) dodesymop) /\
  (forall a, In a dodesymop -> exists b, In b dodesymop /\ matmul a b = identity 6 /\ matmul b a = identity 6).
Proof.
  split; [exact dodesymop_length|]. split; [apply (ig_nodup _ _ dodesymop_group)|].
  split; [exact dodesymop_hd|]. split; [apply (ig_sq _ _ dodesymop_group)|].
  split; [apply (ig_mul _ _ dodesymop_group)|]. apply (ig_inv _ _ dodesymop_group).
Qed.

(** Each acts on the parallel and on the perpendicular plane by an orthogonal 2x2
    matrix and fixes the fifth and sixth coordinate. *)
Lemma L_C48_isometry : forall op, In op dodesymop ->
  exists Mpar Mperp, orthogonal 2 Mpar /\ orthogonal 2 Mperp /\
    forall x, length x = 6%nat ->
      par_plane (matvec (IZRm op) x) = matvec Mpar (par_plane x) /\
      perp_plane (matvec (IZRm op) x) = matvec Mperp (perp_plane x) /\
      nth 4 (matvec (IZRm op) x) 0 = nth 4 x 0 /\ nth 5 (matvec (IZRm op) x) 0 = nth 5 x 0.
Proof. exact dodesymop_iso. Qed.

Lemma L_C48_preserves_products : forall op u v, In op dodesymop -> length u = 6%nat -> length v = 6%nat ->
  dot (par_plane (matvec (IZRm op) u)) (par_plane (matvec (IZRm op) v)) = dot (par_plane u) (par_plane v) /\
  dot (perp_plane (matvec (IZRm op) u)) (perp_plane (matvec (IZRm op) v)) = dot (perp_plane u) (perp_plane v).
Proof.
  intros op u v Hop Hu Hv. destruct (dodesymop_iso op Hop) as (P & Q & (_ & _ & OP) & (_ & _ & OQ) & H).
  destruct (H u Hu) as (-> & -> & _), (H v Hv) as (-> & -> & _). split; [apply OP|apply OQ]; reflexivity.
Qed.

Example E_C48_ex : In dm1 dodesymop /\ In dm2 dodesymop /\ matmul dm1 dm2 <> matmul dm2 dm1 /\
  matrixpow dm1 12 = identity 6 /\ matrixpow dm1 6 <> identity 6.
Proof.
  split; [apply mem_In; vm_compute; reflexivity|]. split; [apply mem_In; vm_compute; reflexivity|].
  split; [vm_compute; discriminate|]. split; [vm_compute; reflexivity|vm_compute; discriminate].
Qed.

(** C49: similarity(m) similarity(n) = similarity(m+n) for all integers. *)
Lemma L_C49_compose : forall m n,
  square 6 (similarity m) /\ matmul (similarity m) (similarity n) = similarity (m + n) /\
  similarity 0 = identity 6.
Proof. intros m n. split; [apply similarity_square|]. split; [apply similarity_mul|reflexivity]. Qed.

(** The same on objects: applying m and then n is applying m+n; in particular -m
    undoes m on canonical objects. *)
Lemma L_C49_objects : forall m n o, goodo 6 o ->
  exists r r', similarity_obj o m = Ok r /\ similarity_obj r n = Ok r' /\ similarity_obj o (m + n) = Ok r'.
Proof.
  intros m n o Ho. pose proof (similarity_obj_compose m n o Ho) as E.
  pose proof (similarity_obj_spec (m+n) o Ho) as S. apply wp_elim in S as (r' & E' & _).
  rewrite E' in E. apply bind_Ok_inv in E as (r & E1 & E2). exists r, r'. auto.
Qed.
Lemma L_C49_undo : forall m o, cgoodo 6 o ->
  exists r, similarity_obj o m = Ok r /\ similarity_obj r (- m) = Ok o.
Proof.
  intros m o Ho. destruct (L_C49_objects m (-m) o (cgoodo_goodo _ _ Ho)) as (r & r' & E1 & E2 & E3).
  exists r. split; [exact E1|]. rewrite E2, <- E3. replace (m + - m)%Z with 0%Z by lia.
  pose proof (similarity_obj_spec 0 o (cgoodo_goodo _ _ Ho)) as S. apply wp_elim in S as (q & Eq & C & V).
  rewrite Eq. f_equal. apply (cgoodo_det dode_arith 6); [assumption..|]. rewrite V. clear -Ho.
  induction Ho as [|t o Ht _ IH]; [reflexivity|]. cbn [map]. f_equal; [|exact IH]. clear IH.
  induction Ht as [|v t [Cv Lv] _ IH]; [reflexivity|]. cbn [map]. f_equal; [|exact IH].
  change (similarity 0) with (identity 6). apply matvec_identity. rewrite vals_length. exact Lv.
Qed.

(** In perpendicular space similarity(m) is a rotation by m*75 degrees times the
    factor sqrt(2-sqrt 3)^m, in parallel space a rotation by m*15 degrees times
    sqrt(2+sqrt 3)^m.  The fifth and sixth coordinates are kept. *)
Lemma L_C49_factor : forall m x, length x = 6%nat ->
  let r := powerRZ (sqrt (2 - sqrt 3)) m in let r' := powerRZ (sqrt (2 + sqrt 3)) m in
  let a := IZR m * (5 * PI / 12) in let a' := IZR m * (PI / 12) in
  perp_plane (matvec (IZRm (similarity m)) x) = rotscale (r * cos a) (r * sin a) (perp_plane x) /\
  par_plane (matvec (IZRm (similarity m)) x) = rotscale (r' * cos a') (r' * sin a') (par_plane x) /\
  nth 4 (matvec (IZRm (similarity m)) x) 0 = nth 4 x 0 /\ nth 5 (matvec (IZRm (similarity m)) x) 0 = nth 5 x 0.
Proof. intros m x Lx. exact (similarity_polar m x Lx). Qed.

(** similarity_vec is that matrix applied to the vector, exactly. *)
Lemma L_C49_vec : forall m v, good 6 v ->
  exists r, similarity_vec v m = Ok (Some r) /\ canonv r /\
    vals SIN r = matvec (IZRm (similarity m)) (vals SIN v).
Proof.
  intros m v Hv. pose proof (similarity_vec_spec m v Hv) as S. apply wp_elim in S as (r & E & C & V).
  apply bind_Ok_inv in E as (o & E & E'). destruct o as [o|]; [|discriminate]. injection E' as <-. eauto.
Qed.

(** Areas of objects are multiplied by (2-sqrt 3)^m. *)
Lemma L_C49_area : forall m o r a, tris o -> similarity_obj o m = Ok r -> obj_area_6d (A4 o) = Ok (Some a) ->
  exists a', obj_area_6d (A4 r) = Ok (Some a') /\ canon a' /\ val SIN a' = powerRZ (2 - sqrt 3) m * val SIN a.
Proof.
  intros m o r a Ho E Ea. destruct (obj_area_similarity m o r Ho E) as [Hr S].
  pose proof (obj_area_spec r Hr) as Sr. apply wp_elim in Sr as (x & Ex & a' & -> & C & V).
  pose proof (obj_area_spec o Ho) as So. rewrite Ea in So. cbn in So. destruct So as (a0 & [= <-] & _ & Va).
  exists a'. split; [exact Ex|]. split; [exact C|]. rewrite V, Va. exact S.
Qed.

(** It is not a pure scaling of perpendicular space: similarity(1) maps the second
    lattice vector to a multiple of itself for no factor. *)
Lemma L_C49_pure_scaling_refuted :
  ~ exists f, forall x, length x = 6%nat ->
      perp_plane (matvec (IZRm (similarity 1)) x) = vscale f (perp_plane x).
Proof.
  intros (f & H). specialize (H [0;1;0;0;0;0] eq_refl).
  destruct (similarity_polar 1 [0;1;0;0;0;0] eq_refl) as (E & _). rewrite E in H. clear E.
  rewrite powerRZ_1, !Rmult_1_l in H. destruct polar_perp as [P1 P2]. rewrite P1, P2 in H.
  unfold perp_plane, dperp, dperp_rows, matvec, dot, vscale in H. cbn in H. injection H as E1 E2. lra.
Qed.

Example E_C49_ex :
  similarity 2 = [[1;2;1;0;0;0];[0;1;2;1;0;0];[-1;0;2;2;0;0];[-2;-1;2;2;0;0];[0;0;0;0;1;0];[0;0;0;0;0;1]]%Z /\
  let t := [[t0;t0;t0;t0;t0;t0]; [t1;t0;t0;t0;t0;t0]; [t0;t1;t0;t0;t0;t0]] in
  tris [t] /\
  similarity_obj [t] 1 = Ok [[[t0;t0;t0;t0;t0;t0]; [t1;t0;t0;T (-1) 0 1;t0;t0]; [t1;t1;t0;t0;t0;t0]]] /\
  obj_area_6d (A4 [t]) = Ok (Some (T 1 0 4)) /\
  obj_area_6d (A4 [[[t0;t0;t0;t0;t0;t0]; [t1;t0;t0;T (-1) 0 1;t0;t0]; [t1;t1;t0;t0;t0;t0]]]) = Ok (Some (T 1 (-1) 2)).
Proof.
  split; [vm_compute; reflexivity|]. cbn zeta. split; [|repeat split; vm_compute; reflexivity].
  apply Forall_cons; [|apply Forall_nil]. split; [reflexivity|].
  repeat (apply Forall_cons; [split; [repeat (apply Forall_cons; [unfold wf; cbn; lia|]); apply Forall_nil|reflexivity]|]);
  apply Forall_nil.
Qed.

(** C50: exactly half the absolute cross product of the projected edges. *)
Lemma L_C50_exact : forall p0 p1 p2, goods 6 [p0;p1;p2] ->
  exists a, triangle_area_6d (A3 [p0;p1;p2]) = Ok (Some a) /\ canon a /\
    let X := fun q => nth 0 (dperp (vals SIN q)) 0 in let Y := fun q => nth 1 (dperp (vals SIN q)) 0 in
    val SIN a = Rabs ((X p1 - X p0) * (Y p2 - Y p0) - (Y p1 - Y p0) * (X p2 - X p0)) / 2.
Proof.
  intros p0 p1 p2 H. pose proof (triarea6_spec [p0;p1;p2] eq_refl H) as S.
  apply wp_elim in S as (a & E & C & V). exists a. cbn [triangle_area_6d]. rewrite E.
  split; [reflexivity|]. split; [exact C|]. exact V.
Qed.

Lemma L_C50_nonneg_zero : forall p0 p1 p2 a, goods 6 [p0;p1;p2] ->
  triangle_area_6d (A3 [p0;p1;p2]) = Ok (Some a) ->
  0 <= val SIN a /\
  (a = t0 <-> collinear2 (map (fun q => perp_plane (vals SIN q)) [p0;p1;p2])).
Proof.
  intros p0 p1 p2 v H E. pose proof (triarea6_spec [p0;p1;p2] eq_refl H) as S.
  cbn [triangle_area_6d] in E. apply bind_Ok_inv in E as (v' & E & [= ->]). rewrite E in S. destruct S as [C V].
  split; [rewrite V; apply triarea_nonneg|]. cbn [map]. rewrite <- triarea_zero by reflexivity.
  change (triarea _) with (parea [p0;p1;p2]). rewrite <- V. split.
  - intros ->. apply val_t0.
  - intros Z. apply (canon_val_eq SIN); [exact SIN_irrational|exact C|apply canon_t0|]. rewrite Z. symmetry; apply val_t0.
Qed.

(** Same array for any order of the vertices, after a translation, and after any of
    the 24 operations about any centre. *)
Lemma L_C50_vertex_order : forall t t', length t = 3%nat -> goods 6 t -> Permutation t t' ->
  triangle_area_6d (A3 t) = triangle_area_6d (A3 t').
Proof.
  intros t t' L H P. cbn [triangle_area_6d].
  enough (triangle_area_6d_3 t = triangle_area_6d_3 t') as -> by reflexivity.
  apply (evals_det (x := parea t) SIN_irrational); [apply triarea6_spec; assumption|].
  rewrite (parea_perm t t' P). apply triarea6_spec; [rewrite <- (Permutation_length P); exact L|].
  apply (Permutation_Forall P H).
Qed.

Lemma L_C50_translation : forall o s r, tris o -> good 6 s -> dshift_object (A4 o) s = Ok (Some r) ->
  tris r /\ obj_area_6d (A4 r) = obj_area_6d (A4 o) /\
  Forall2 (fun t t' => triangle_area_6d (A3 t') = triangle_area_6d (A3 t)) o r.
Proof.
  intros o s r Ho Hs E. destruct (obj_area_shift o s r Ho Hs E) as [H1 H2]. split; [exact H1|]. split; [exact H2|].
  pose proof (shift_spec dode_arith o s 6 (tris_goodo _ Ho) Hs) as S.
  change (shift_object_ dadd (A4 o) s) with (dshift_object (A4 o) s) in S. rewrite E in S. cbn in S.
  destruct S as (r' & [= <-] & C & V). clear E H2 C.
  revert r H1 V. induction Ho as [|t o [L G] _ IH]; intros [|t' r] H1 V; cbn in V; try discriminate; [constructor|].
  injection V as V1 V2. destruct (Forall_inv H1) as [L' G']. constructor; [|apply IH; [apply (Forall_inv_tail H1)|exact V2]].
  cbn [triangle_area_6d]. enough (triangle_area_6d_3 t' = triangle_area_6d_3 t) as -> by reflexivity.
  apply (evals_det (x := parea t) SIN_irrational); [|apply triarea6_spec; assumption].
  rewrite <- (parea_shift (vals SIN s) t t'); [apply triarea6_spec; assumption| |assumption..].
  rewrite vals_length. apply Hs.
Qed.

Lemma L_C50_symmetry : forall op c o r, In op dodesymop -> good 6 c -> tris o ->
  dsymop_obj op (A4 o) c = Ok (Some (A4 r)) -> obj_area_6d (A4 r) = obj_area_6d (A4 o).
Proof. intros op c o r Hop Hc Ho E. apply (obj_area_symop op c o r Hop Hc Ho E). Qed.

Lemma L_C50_symmetry_triangle : forall op t c t', In op dodesymop -> length t = 3%nat -> goods 6 t -> good 6 c ->
  dsymop_obj op (A3 t) c = Ok (Some (A3 t')) ->
  triangle_area_6d (A3 t') = triangle_area_6d (A3 t).
Proof.
  intros op t c t' Hop L H Hc E.
  pose proof (symop_vecs_spec dode_arith op t c 6 ltac:(lia) (ig_sq _ _ dodesymop_group op Hop) H Hc) as S.
  unfold dsymop_obj in E. cbn [symop_obj_] in E. apply bind_Ok_inv in E as (r & E & [= ->]). rewrite E in S.
  destruct S as [C V]. cbn [triangle_area_6d].
  enough (triangle_area_6d_3 t' = triangle_area_6d_3 t) as -> by reflexivity.
  apply (evals_det (x := parea t) SIN_irrational); [|apply triarea6_spec; assumption].
  rewrite <- (parea_act op (vals SIN c) t t' Hop); [|rewrite vals_length; apply Hc|assumption..].
  apply triarea6_spec; [|apply cgoods_goods, C]. apply mapM_length in E. lia.
Qed.

(** obj_area_6d is the sum over the triangles (and over the objects of a 5-d array). *)
Lemma L_C50_sum : forall o, tris o ->
  exists a, obj_area_6d (A4 o) = Ok (Some a) /\ canon a /\ val SIN a = Rsum (map parea o).
Proof. intros o Ho. pose proof (obj_area_spec o Ho) as S. apply wp_elim in S as (x & E & v & -> & H). exists v. auto. Qed.
Lemma L_C50_nested : forall os, Forall tris os ->
  exists a, obj_area_6d (A5 os) = Ok (Some a) /\ canon a /\ val SIN a = Rsum (map (fun o => Rsum (map parea o)) os).
Proof. intros os Ho. pose proof (obj_area5_spec os Ho) as S. apply wp_elim in S as (x & E & v & -> & H). exists v. auto. Qed.
Lemma L_C50_parea : forall t a, length t = 3%nat -> goods 6 t ->
  triangle_area_6d (A3 t) = Ok (Some a) -> val SIN a = parea t.
Proof.
  intros t v L H E. pose proof (triarea6_spec t L H) as S. cbn [triangle_area_6d] in E.
  apply bind_Ok_inv in E as (v' & E & [= ->]). rewrite E in S. apply S.
Qed.
Lemma L_C50_append : forall a b va vb vab, tris a -> tris b ->
  obj_area_6d (A4 a) = Ok (Some va) -> obj_area_6d (A4 b) = Ok (Some vb) -> dadd va vb = Ok vab ->
  obj_area_6d (A4 (a ++ b)) = Ok (Some vab).
Proof.
  intros a b va vb vab Ha Hb Ea Eb Es. rewrite (obj_area_app a b Ha Hb), Ea, Eb.
  cbn [bind]. rewrite Es. reflexivity.
Qed.
Lemma L_C50_order : forall o o', tris o -> Permutation o o' -> obj_area_6d (A4 o) = obj_area_6d (A4 o').
Proof. exact obj_area_perm. Qed.

(** The full symmetric orbit of an object has 24 times its area. *)
Lemma L_C50_symmetric : forall o c r a, tris o -> good 6 c ->
  dgenerator_obj_symmetric_obj (A4 o) c = Ok (Some (A4 r)) -> obj_area_6d (A4 o) = Ok (Some a) ->
  exists a', obj_area_6d (A4 r) = Ok (Some a') /\ canon a' /\ val SIN a' = 24 * val SIN a.
Proof.
  intros o c r v Ho Hc E Ev. destruct (obj_area_symmetric o c r Ho Hc E) as [Hr S].
  destruct (L_C50_sum r Hr) as (v' & Ev' & C & V). exists v'. split; [exact Ev'|]. split; [exact C|].
  destruct (L_C50_sum o Ho) as (v2 & Ev2 & _ & V2). rewrite Ev in Ev2. injection Ev2 as <-. rewrite V, V2. exact S.
Qed.

Example E_C50_ex :
  let t := [[t0;t0;t0;t0;t0;t0]; [t1;t0;t0;t0;t0;t0]; [t0;t1;t0;t0;t0;t0]] in
  let u := [[t0;t0;t0;t0;t0;t0]; [t1;t0;t0;t0;t0;t0]; [t0;t0;t1;t0;t0;t0]] in
  tris [t;u] /\ triangle_area_6d (A3 t) = Ok (Some (T 1 0 4)) /\ triangle_area_6d (A3 (rev t)) = Ok (Some (T 1 0 4)) /\
  triangle_area_6d (A3 u) = Ok (Some (T 0 1 2)) /\ obj_area_6d (A4 [t;u]) = Ok (Some (T 1 2 4)).
Proof.
  cbn zeta. split; [|repeat split; vm_compute; reflexivity].
  repeat (apply Forall_cons; [split; [reflexivity|]; 
    repeat (apply Forall_cons; [split; [repeat (apply Forall_cons; [unfold wf; cbn; lia|]); apply Forall_nil|reflexivity]|]);
    apply Forall_nil|]); apply Forall_nil.
Qed.
