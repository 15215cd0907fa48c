(** Symmetry operations, shifts and centroids, for both packages. *)
From Coq Require Import Reals List ZArith Lia Lra Bool Permutation.
From Verif Require Import Base.Res Model.Tau Model.Arr Model.Vectors Model.IcoMath1 Spec.Value Spec.RVec Spec.Shape
  Proofs.ResLemmas Proofs.ValueLemmas Proofs.ScalarLemmas Proofs.RVecLemmas Proofs.VectorLemmas
  Proofs.MatLemmas.
Import ListNotations.
Local Open Scope R_scope.

Lemma act_length op c v n : square n op -> length c = n -> length v = n -> length (act op c v) = n.
Proof.
  intros [Ho _] Hc Hv. unfold act. rewrite vadd_length; rewrite matvec_length; unfold IZRm; rewrite map_length; lia.
Qed.

Lemma act_compose op1 op2 c v n : (0 < n)%nat -> square n op1 -> square n op2 ->
  length c = n -> length v = n ->
  act op2 c (act op1 c v) = act (matmul op2 op1) c v.
Proof.
  intros Hn [L1 R1] [L2 R2] Hc Hv. unfold act.
  rewrite vsub_vadd.
  2:{ rewrite matvec_length; unfold IZRm; rewrite map_length; lia. }
  rewrite (matvec_matmul op2 op1 n).
  - reflexivity.
  - rewrite L1; exact R2.
  - exact R1.
  - intros ->; cbn in L1; lia.
Qed.

Lemma act_identity c v n : length c = n -> length v = n -> act (identity n) c v = v.
Proof.
  intros Hc Hv. unfold act. rewrite matvec_identity by (rewrite vsub_length; lia).
  apply vadd_vsub; lia.
Qed.

Lemma act_centre op c n : square n op -> length c = n -> act op c c = c.
Proof.
  intros [L R] Hc. unfold act. rewrite vsub_self, matvec_vscale.
  apply vadd_zero_l. rewrite matvec_length; unfold IZRm; rewrite map_length; lia.
Qed.

Section Gen.
  Context {w : R} {add mul : tau -> tau -> res tau} (A : arith_ok w add mul).
  Local Notation irr := (ao_irr _ _ _ A).

  Lemma symop_vec_spec op v c n : (0 < n)%nat -> square n op ->
    wfv v -> wfv c -> length v = n -> length c = n ->
    evalsv w (symop_vec_ add mul op v c) (act op (vals w c) (vals w v)).
  Proof.
    intros Hn [Lo Ro] Hv Hc Lv Lc. unfold symop_vec_.
    eapply evalsv_bind; [apply (sub_vectors_spec A); [exact Hv|exact Hc|lia]|].
    intros u _ Wu Vu.
    assert (Lu : length u = n).
    { rewrite <- (vals_length w), Vu, vsub_length; rewrite !vals_length; lia. }
    apply wp_bind. eapply wp_mono; [apply (dot_product_1_spec A)|].
    - intros ->; cbn in Lo; lia.
    - rewrite Lu; exact Ro.
    - exact Wu.
    - intros o (r & -> & Cr & Vr). cbn [notNone bind].
      assert (Lr : length r = n).
      { rewrite <- (vals_length w), Vr, matvec_length. unfold IZRm; rewrite map_length; lia. }
      eapply wp_mono; [apply (add_vectors_spec A); [apply canonv_wfv; exact Cr|exact Hc|lia]|].
      intros q [Cq Vq]. split; [exact Cq|]. rewrite Vq, Vr, Vu. reflexivity.
  Qed.

  Lemma cgood_good n v : cgood n v -> good n v.
  Proof. intros [H L]; split; [apply canonv_wfv|]; assumption. Qed.
  Lemma cgoods_goods n v : cgoods n v -> goods n v.
  Proof. apply Forall_impl, cgood_good. Qed.
  Lemma cgoodo_goodo n v : cgoodo n v -> goodo n v.
  Proof. apply Forall_impl, cgoods_goods. Qed.

  (** mapM of vector functions with a pointwise real meaning. *)
  Lemma mapM_evalsv (f : vec -> res vec) (F : list R -> list R) n vs :
    goods n vs ->
    (forall v, good n v -> evalsv w (f v) (F (vals w v)) /\ length (F (vals w v)) = n) ->
    wp (mapM f vs) (fun rs => cgoods n rs /\ map (vals w) rs = map (fun v => F (vals w v)) vs).
  Proof.
    intros Hvs Hf. induction Hvs as [|v vs' Hv _ IH]; cbn [mapM].
    - split; [constructor|reflexivity].
    - destruct (Hf v Hv) as [Ef Lf].
      eapply evalsv_bind; [exact Ef|]. intros r Cr _ Vr.
      apply wp_bind. eapply wp_mono; [exact IH|]. intros rs [Crs Vrs].
      split.
      + constructor; [|exact Crs]. split; [exact Cr|].
        rewrite <- (vals_length w), Vr; exact Lf.
      + cbn. rewrite Vr, Vrs. reflexivity.
  Qed.

  Lemma mapM2_evalsv (f : vec -> res vec) (F : list R -> list R) n o :
    goodo n o ->
    (forall v, good n v -> evalsv w (f v) (F (vals w v)) /\ length (F (vals w v)) = n) ->
    wp (mapM (mapM f) o) (fun rs => cgoodo n rs /\
       map (map (vals w)) rs = map (map (fun v => F (vals w v))) o).
  Proof.
    intros Ho Hf. induction Ho as [|v vs' Hv _ IH]; cbn [mapM].
    - split; [constructor|reflexivity].
    - apply wp_bind. eapply wp_mono; [apply mapM_evalsv; eassumption|]. intros r [Cr Vr].
      apply wp_bind. eapply wp_mono; [exact IH|]. intros rs [Crs Vrs].
      split; [constructor; assumption|]. cbn. rewrite Vr, Vrs. reflexivity.
  Qed.

  (** Canonical arrays are determined by the values they denote. *)
  Lemma cgoods_det n a b : cgoods n a -> cgoods n b ->
    map (vals w) a = map (vals w) b -> a = b.
  Proof.
    intros Ha; revert b; induction Ha as [|x xs [Hx _] _ IH]; intros [|y ys] Hb E; cbn in E;
      try discriminate; [reflexivity|].
    injection E as E1 E2. inversion Hb; subst.
    match goal with H : cgood n y |- _ => destruct H end.
    f_equal; [apply (canonv_vals_eq w); auto; exact irr|apply IH; assumption].
  Qed.

  Lemma cgoodo_det n a b : cgoodo n a -> cgoodo n b ->
    map (map (vals w)) a = map (map (vals w)) b -> a = b.
  Proof.
    intros Ha; revert b; induction Ha as [|x xs Hx _ IH]; intros [|y ys] Hb E; cbn in E;
      try discriminate; [reflexivity|].
    injection E as E1 E2. inversion Hb; subst.
    f_equal; [apply (cgoods_det n); assumption|apply IH; assumption].
  Qed.

  Lemma symop_vecs_spec op vs c n : (0 < n)%nat -> square n op -> goods n vs -> good n c ->
    wp (symop_vecs_ add mul op vs c) (fun rs => cgoods n rs /\
       map (vals w) rs = map (fun v => act op (vals w c) (vals w v)) vs).
  Proof.
    intros Hn Ho Hvs [Hc Lc]. unfold symop_vecs_.
    apply (mapM_evalsv _ (act op (vals w c))); [exact Hvs|].
    intros v [Hv Lv]. split.
    - apply (symop_vec_spec op v c n); auto.
    - apply act_length; auto; rewrite vals_length; assumption.
  Qed.

  Lemma symop_obj4_spec op o c n : (0 < n)%nat -> square n op -> goodo n o -> good n c ->
    wp (mapM (fun vts => symop_vecs_ add mul op vts c) o) (fun rs => cgoodo n rs /\
       map (map (vals w)) rs = map (map (fun v => act op (vals w c) (vals w v))) o).
  Proof.
    intros Hn Ho Hvs [Hc Lc]. unfold symop_vecs_.
    apply (mapM2_evalsv _ (act op (vals w c))); [exact Hvs|].
    intros v [Hv Lv]. split.
    - apply (symop_vec_spec op v c n); auto.
    - apply act_length; auto; rewrite vals_length; assumption.
  Qed.

  (** ** Group action *)
  Lemma symop_vec_compose op1 op2 v c n : (0 < n)%nat -> square n op1 -> square n op2 ->
    good n v -> good n c ->
    bind (symop_vec_ add mul op1 v c) (fun v' => symop_vec_ add mul op2 v' c)
    = symop_vec_ add mul (matmul op2 op1) v c.
  Proof.
    intros Hn H1 H2 [Hv Lv] [Hc Lc].
    assert (Hsq : square n (matmul op2 op1)).
    { destruct H1 as [L1 R1], H2 as [L2 R2]. unfold matmul, square. rewrite map_length. split; [exact L2|].
      apply Forall_forall. intros r Hr. apply in_map_iff in Hr as (x & <- & _).
      rewrite map_length, seq_length. apply rect_ncols; [exact R1|]. intros ->; cbn in L1; lia. }
    apply (evalsv_det (x := act (matmul op2 op1) (vals w c) (vals w v)) irr).
    - eapply evalsv_bind; [apply (symop_vec_spec op1 v c n); auto|]. intros r Cr Wr Vr.
      assert (Lr : length r = n).
      { rewrite <- (vals_length w), Vr. apply act_length; auto; rewrite vals_length; assumption. }
      eapply wp_mono; [apply (symop_vec_spec op2 r c n); auto|]. intros q [Cq Vq].
      split; [exact Cq|]. rewrite Vq, Vr. apply (act_compose op1 op2 _ _ n); auto; rewrite vals_length; assumption.
    - apply (symop_vec_spec _ v c n); auto.
  Qed.

  Lemma symop_vec_identity v c n : (0 < n)%nat -> cgood n v -> good n c ->
    symop_vec_ add mul (identity n) v c = Ok v.
  Proof.
    intros Hn [Hv Lv] [Hc Lc].
    eapply (evalsv_Ok (w := w)); [exact irr| |exact Hv|].
    - apply (symop_vec_spec _ v c n); auto; [|apply canonv_wfv; exact Hv].
      unfold identity, square. rewrite map_length, seq_length. split; [reflexivity|].
      apply Forall_forall. intros r Hr. apply in_map_iff in Hr as (x & <- & _).
      rewrite map_length, seq_length; reflexivity.
    - symmetry. apply act_identity; rewrite vals_length; assumption.
  Qed.

  Lemma symop_vec_centre op c n : (0 < n)%nat -> square n op -> cgood n c ->
    symop_vec_ add mul op c c = Ok c.
  Proof.
    intros Hn Ho [Hc Lc].
    eapply (evalsv_Ok (w := w)); [exact irr| |exact Hc|].
    - apply (symop_vec_spec _ c c n); auto; apply canonv_wfv; exact Hc.
    - symmetry. apply (act_centre op _ n); [exact Ho|]. rewrite vals_length; assumption.
  Qed.

  (** ** Shift *)
  Lemma shift_spec o s n : goodo n o -> good n s ->
    wp (shift_object_ add (A4 o) s) (fun r => exists o', r = Some o' /\ cgoodo n o' /\
      map (map (vals w)) o' = map (map (fun v => vadd (vals w v) (vals w s))) o).
  Proof.
    intros Ho [Hs Ls]. cbn [shift_object_]. apply wp_bind.
    eapply wp_mono; [apply (mapM2_evalsv _ (fun x => vadd x (vals w s)) n o Ho)|].
    - intros v [Hv Lv]. split; [apply (add_vectors_spec A); auto; lia|].
      rewrite vadd_length; rewrite !vals_length; lia.
    - intros r [Cr Vr]. cbn. eauto.
  Qed.
End Gen.
