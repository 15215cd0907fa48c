(** The generic vector functions compute the real vector operations. *)
From Coq Require Import Reals List ZArith Lia Lra Bool.
From Verif Require Import Base.Res Model.Tau Model.Arr Model.Vectors Spec.Value Spec.RVec Spec.Shape
  Proofs.ResLemmas Proofs.ValueLemmas Proofs.ScalarLemmas Proofs.RVecLemmas.
Import ListNotations.
Local Open Scope R_scope.

Lemma canonv_vals_eq w u v : irrational w -> canonv u -> canonv v -> vals w u = vals w v -> u = v.
Proof.
  intros Hw Hu; revert v; induction Hu as [|x xs Hx _ IH]; intros v Hv H; destruct v as [|y ys];
    cbn in H; try discriminate; [reflexivity|].
  injection H as Eh Et. inversion Hv; subst.
  f_equal; [apply (canon_val_eq w); assumption|apply IH; assumption].
Qed.

Lemma evals_det {w m1 m2 x} : irrational w -> evals w m1 x -> evals w m2 x -> m1 = m2.
Proof. apply wp_canon_det. Qed.

Lemma evalsv_det {w m1 m2 x} : irrational w -> evalsv w m1 x -> evalsv w m2 x -> m1 = m2.
Proof.
  unfold evalsv. intros Hw H1 H2. destruct m1 as [r1|], m2 as [r2|]; cbn in *; try tauto.
  f_equal. apply (canonv_vals_eq w); try tauto. destruct H1, H2; congruence.
Qed.

Lemma evalsv_Ok {w m x r} : irrational w -> evalsv w m x -> canonv r -> vals w r = x -> m = Ok r.
Proof.
  intros Hw H Hr Hv. apply (evalsv_det Hw H). split; assumption.
Qed.

Lemma wfv_nth v i t : wfv v -> nth_error v i = Some t -> wf t.
Proof. intros H E. eapply Forall_forall; [exact H|]. eapply nth_error_In; exact E. Qed.

Section Gen.
  Context {w : R} {add mul : tau -> tau -> res tau} (A : arith_ok w add mul).

  Notation sub := (sub_ add mul).
  Local Notation irr := (ao_irr _ _ _ A).

  Lemma g_add a b : wf a -> wf b -> evals w (add a b) (val w a + val w b).
  Proof. apply (ao_add _ _ _ A). Qed.
  Lemma g_mul a b : wf a -> wf b -> evals w (mul a b) (val w a * val w b).
  Proof. apply (ao_mul _ _ _ A). Qed.
  Lemma g_sub a b : wf a -> wf b -> evals w (sub a b) (val w a - val w b).
  Proof. apply (sub_spec_gen A). Qed.

  Lemma evals_bind {B} m x (k : tau -> res B) Q :
    evals w m x -> (forall r, canon r -> wf r -> val w r = x -> wp (k r) Q) -> wp (bind m k) Q.
  Proof.
    intros Hm Hk. apply wp_bind. eapply wp_mono; [exact Hm|].
    intros r [C V]. apply Hk; auto. apply canon_wf; assumption.
  Qed.

  Lemma evalsv_bind {B} m x (k : vec -> res B) Q :
    evalsv w m x -> (forall r, canonv r -> wfv r -> vals w r = x -> wp (k r) Q) -> wp (bind m k) Q.
  Proof.
    intros Hm Hk. apply wp_bind. eapply wp_mono; [exact Hm|].
    intros r [C V]. apply Hk; auto. apply canonv_wfv; assumption.
  Qed.

  Lemma add_vectors_spec u v : wfv u -> wfv v -> (length u <= length v)%nat ->
    evalsv w (add_vectors_ add u v) (vadd (vals w u) (vals w v)).
  Proof.
    intros Hu; revert v; induction Hu as [|x xs Hx Hxs IH]; intros [|y ys] Hv Hl; cbn in Hl |- *;
      try lia; try (split; [constructor|reflexivity]).
    inversion Hv; subst.
    eapply evals_bind; [apply g_add; assumption|]. intros z Cz _ Vz.
    eapply evalsv_bind; [apply IH; [assumption|lia]|]. intros zs Czs _ Vzs.
    split; [constructor; assumption|]. cbn. rewrite Vz. f_equal. exact Vzs.
  Qed.

  Lemma add_vectors_short u v : wfv u -> wfv v -> (length v < length u)%nat ->
    add_vectors_ add u v = Raise IndexError.
  Proof.
    intros Hu; revert v; induction Hu as [|x xs Hx Hxs IH]; intros [|y ys] Hv Hl; cbn in Hl |- *;
      try lia; [reflexivity|].
    inversion Hv; subst.
    destruct (wp_elim _ _ (g_add x y Hx H1)) as (z & -> & _). cbn [bind].
    rewrite IH by (assumption || lia). reflexivity.
  Qed.

  Lemma mul_vector_spec v c : wfv v -> wf c ->
    evalsv w (mul_vector_ mul v c) (vscale (val w c) (vals w v)).
  Proof.
    intros Hv Hc; induction Hv as [|x xs Hx Hxs IH]; unfold mul_vector_ in *; cbn [mapM].
    - split; [constructor|reflexivity].
    - eapply evals_bind; [apply g_mul; assumption|]. intros z Cz _ Vz.
      eapply evalsv_bind; [exact IH|]. intros zs Czs _ Vzs.
      split; [constructor; assumption|]. cbn. rewrite Vz. f_equal; [ring|exact Vzs].
  Qed.

  Lemma vals_nth v i t : nth_error v i = Some t -> nth_error (vals w v) i = Some (val w t).
  Proof. intros H. unfold vals. erewrite map_nth_error; [reflexivity|exact H]. Qed.

  Lemma sub_vectors_spec u v : wfv u -> wfv v -> (length u <= length v)%nat ->
    evalsv w (sub_vectors_ add mul u v) (vsub (vals w u) (vals w v)).
  Proof.
    intros Hu Hv Hl. unfold sub_vectors_.
    eapply evalsv_bind; [apply mul_vector_spec; [exact Hv|exact wf_tm1]|].
    intros r Cr Wr Vr.
    assert (Hlr : length r = length v).
    { rewrite <- (vals_length w r), Vr, vscale_length, vals_length; reflexivity. }
    eapply wp_mono; [apply add_vectors_spec; [exact Hu|exact Wr|lia]|].
    intros r' [C' V']. split; [exact C'|]. rewrite V', Vr, val_tm1.
    clear. generalize (vals w u) (vals w v). intros l; induction l as [|x xs IH]; intros [|y ys]; cbn;
      try reflexivity. f_equal; [ring|]. apply IH.
  Qed.

  Lemma mul_vectors_spec vs c : Forall wfv vs -> wf c ->
    wp (mul_vectors_nd mul (A3 vs) c)
       (fun o => exists rs, o = Some rs /\ Forall canonv rs /\
                            map (vals w) rs = map (fun v => vscale (val w c) (vals w v)) vs).
  Proof.
    intros Hvs Hc. cbn [mul_vectors_nd]. apply wp_bind.
    eapply wp_mono.
    - apply (wp_mapM _ wfv (fun v r => canonv r /\ vals w r = vscale (val w c) (vals w v)));
        [exact Hvs|]. intros v Hv. apply mul_vector_spec; assumption.
    - intros rs H. cbn [wp]. exists rs. split; [reflexivity|].
      clear Hvs. induction H as [|v r vs' rs' [C V] _ [IH1 IH2]].
      + split; [constructor|reflexivity].
      + split; [constructor; assumption|]. cbn. rewrite V, IH2. reflexivity.
  Qed.

  Lemma mul_vectors_4d o c r : mul_vectors_nd mul (A4 o) c = Ok r -> r = None.
  Proof.
    cbn [mul_vectors_nd]. intros H. apply bind_Ok_inv in H as (x & _ & H). congruence.
  Qed.

  Lemma acc_spec a u v : wf a -> wfv u -> wfv v -> (length u <= length v)%nat ->
    wp (acc_ add mul a u v) (fun r => (u = [] /\ r = a \/ canon r) /\ val w r = val w a + dot (vals w u) (vals w v)).
  Proof.
    intros Ha Hu; revert a Ha v; induction Hu as [|x xs Hx Hxs IH]; intros a Ha [|y ys] Hv Hl;
      cbn in Hl |- *; try lia.
    - split; [left; auto|]. cbn; lra.
    - split; [left; auto|]. cbn; lra.
    - inversion Hv; subst.
      eapply evals_bind; [apply g_mul; assumption|]. intros b Cb Wb Vb.
      eapply evals_bind; [apply g_add; assumption|]. intros a' Ca' Wa' Va'.
      eapply wp_mono; [apply IH; [exact Wa'|assumption|lia]|].
      intros r [Hr Vr]. split.
      + right. destruct Hr as [[_ ->]|Hr]; assumption.
      + rewrite Vr, Va', Vb. unfold dot; cbn [vals map zipWith Rsum]. unfold vals; ring.
  Qed.

  Lemma acc0_spec u v : wfv u -> wfv v -> (length u <= length v)%nat ->
    evals w (acc_ add mul t0 u v) (dot (vals w u) (vals w v)).
  Proof.
    intros Hu Hv Hl. eapply wp_mono; [apply acc_spec; [exact wf_t0|eassumption..]|].
    intros r [Hr Vr]. split; [destruct Hr as [[_ ->]|Hr]; [exact canon_t0|exact Hr]|].
    rewrite Vr, val_t0. ring.
  Qed.

  Lemma inner_product_spec u v : wfv u -> wfv v ->
    if Nat.eqb (length u) (length v)
    then wp (inner_product_ add mul u v)
            (fun o => exists r, o = Some r /\ canon r /\ val w r = dot (vals w u) (vals w v))
    else inner_product_ add mul u v = Ok None.
  Proof.
    intros Hu Hv. unfold inner_product_.
    destruct (Nat.eqb_spec (length u) (length v)) as [E|E]; [|reflexivity].
    eapply evals_bind; [apply acc0_spec; [exact Hu|exact Hv|lia]|].
    intros r Cr _ Vr. cbn. eauto.
  Qed.

  Lemma val_int z : val w (T z 0 1) = IZR z.
  Proof. unfold val; cbn [ta tb tc]. lra. Qed.
  Lemma wf_int z : wf (T z 0 1). Proof. unfold wf; cbn; lia. Qed.

  Lemma accz_spec a r v : canon a -> wfv v -> (length r <= length v)%nat ->
    evals w (accz_ add mul a r v) (val w a + dot (map IZR r) (vals w v)).
  Proof.
    revert a v; induction r as [|x xs IH]; intros a v Ca Hv Hl.
    - cbn. split; [exact Ca|]. destruct (vals w v); cbn; lra.
    - destruct v as [|y ys]; cbn in Hl; [lia|]. inversion Hv; subst. cbn [accz_].
      eapply evals_bind; [apply g_mul; [apply wf_int|assumption]|]. intros b Cb Wb Vb.
      eapply evals_bind; [apply g_add; [apply canon_wf; exact Ca|assumption]|]. intros a' Ca' Wa' Va'.
      eapply wp_mono; [apply IH; [exact Ca'|assumption|lia]|].
      intros q [Cq Vq]. split; [exact Cq|].
      rewrite Vq, Va', Vb, val_int. cbn [map vals]. rewrite dot_cons.
      change (map (val w) ys) with (vals w ys). ring.
  Qed.

  (** Rectangular matrices. *)

  Lemma rect_ncols {B} (m : list (list B)) n : rect m n -> m <> [] -> ncols m = n.
  Proof. intros [|r rs Hr _] Hn; [congruence|exact Hr]. Qed.

  Lemma dot_product_1_spec m v : m <> [] -> rect m (length v) -> wfv v ->
    wp (dot_product_1_ add mul m v)
       (fun o => exists r, o = Some r /\ canonv r /\ vals w r = matvec (IZRm m) (vals w v)).
  Proof.
    intros Hne Hm Hv. unfold dot_product_1_.
    rewrite (rect_ncols m _ Hm Hne), Nat.eqb_refl.
    apply wp_bind.
    apply (wp_mono _ (fun r => canonv r /\ vals w r = matvec (IZRm m) (vals w v)));
      [|intros r H; cbn; eauto].
    clear Hne. induction Hm as [|r rs Hr _ IH]; cbn [mapM].
    - split; [constructor|reflexivity].
    - eapply evals_bind; [apply accz_spec; [exact canon_t0|exact Hv|lia]|]. intros z Cz _ Vz.
      eapply evalsv_bind; [exact IH|]. intros zs Czs _ Vzs.
      split; [constructor; assumption|]. cbn. rewrite Vz, val_t0. f_equal; [ring|exact Vzs].
  Qed.

  Lemma dot_product_1_none m v : m <> [] -> rect m (ncols m) -> ncols m <> length v ->
    dot_product_1_ add mul m v = Ok None.
  Proof.
    intros _ _ H. unfold dot_product_1_.
    destruct (Nat.eqb_spec (ncols m) (length v)); [congruence|reflexivity].
  Qed.

  Lemma outer_product_spec u v : wfv u -> wfv v -> length u = 3%nat -> length v = 3%nat ->
    evalsv w (outer_product_ add mul u v) (cross (vals w u) (vals w v)).
  Proof.
    intros Hu Hv Lu Lv.
    destruct u as [|u1 [|u2 [|u3 [|]]]]; try discriminate.
    destruct v as [|v1 [|v2 [|v3 [|]]]]; try discriminate.
    repeat match goal with H : wfv (_ :: _) |- _ => inversion H; clear H; subst
                      | H : Forall wf (_ :: _) |- _ => inversion H; clear H; subst end.
    unfold outer_product_, get; cbn [nth_error bind].
    eapply evals_bind; [apply g_mul; assumption|]. intros a1 _ ? V1.
    eapply evals_bind; [apply g_mul; assumption|]. intros a2 _ ? V2.
    eapply evals_bind; [apply g_sub; assumption|]. intros c1 ? ? V3.
    eapply evals_bind; [apply g_mul; assumption|]. intros a3 _ ? V4.
    eapply evals_bind; [apply g_mul; assumption|]. intros a4 _ ? V5.
    eapply evals_bind; [apply g_sub; assumption|]. intros c2 ? ? V6.
    eapply evals_bind; [apply g_mul; assumption|]. intros a5 _ ? V7.
    eapply evals_bind; [apply g_mul; assumption|]. intros a6 _ ? V8.
    eapply evals_bind; [apply g_sub; assumption|]. intros c3 ? ? V9.
    cbn [wp]. split; [repeat first [apply Forall_nil | apply Forall_cons; [assumption|]]|].
    cbn [vals map cross]. rewrite V3, V6, V9, V1, V2, V4, V5, V7, V8. reflexivity.
  Qed.

  Lemma mtrixcal_spec a1 a2 a3 a4 a5 a6 v :
    wf a1 -> wf a2 -> wf a3 -> wf a4 -> wf a5 -> wf a6 -> wfv v -> length v = 6%nat ->
    evals w (mtrixcal_ add mul a1 a2 a3 a4 a5 a6 v)
            (dot (vals w [a1;a2;a3;a4;a5;a6]) (vals w v)).
  Proof.
    intros W1 W2 W3 W4 W5 W6 Hv Lv.
    destruct v as [|v1 [|v2 [|v3 [|v4 [|v5 [|v6 [|]]]]]]]; try discriminate.
    repeat match goal with H : wfv (_ :: _) |- _ => inversion H; clear H; subst
                      | H : Forall wf (_ :: _) |- _ => inversion H; clear H; subst end.
    unfold mtrixcal_, get; cbn [nth_error bind].
    eapply evals_bind; [apply g_mul; assumption|]. intros b1 _ ? E1.
    eapply evals_bind; [apply g_mul; assumption|]. intros b2 _ ? E2.
    eapply evals_bind; [apply g_mul; assumption|]. intros b3 _ ? E3.
    eapply evals_bind; [apply g_mul; assumption|]. intros b4 _ ? E4.
    eapply evals_bind; [apply g_mul; assumption|]. intros b5 _ ? E5.
    eapply evals_bind; [apply g_mul; assumption|]. intros b6 _ ? E6.
    eapply evals_bind; [apply g_add; assumption|]. intros s1 _ ? S1.
    eapply evals_bind; [apply g_add; assumption|]. intros s2 _ ? S2.
    eapply evals_bind; [apply g_add; assumption|]. intros s3 _ ? S3.
    eapply evals_bind; [apply g_add; assumption|]. intros s4 _ ? S4.
    eapply wp_mono; [apply g_add; assumption|]. intros r [Cr Vr].
    split; [exact Cr|]. rewrite Vr, S4, S3, S2, S1, E1, E2, E3, E4, E5, E6.
    cbn [vals map]. rewrite !dot_cons, dot_nil_l. ring.
  Qed.
End Gen.
