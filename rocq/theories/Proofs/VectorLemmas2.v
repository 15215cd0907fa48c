(** Matrix products, the wrong 3-d branch of dot_product_1, centroids of
    objects, zero denominators. *)
From Coq Require Import Reals List ZArith Lia Lra Bool.
From Verif Require Import Base.Res Model.Tau Model.Arr Model.IcoScalar Model.Vectors Spec.Value Spec.RVec Spec.Shape Spec.Mean
  Proofs.ResLemmas Proofs.ValueLemmas Proofs.ScalarLemmas Proofs.RVecLemmas Proofs.VectorLemmas
  Proofs.MatLemmas Proofs.SymopLemmas Proofs.MeanLemmas.
Import ListNotations.
Local Open Scope R_scope.

(** ** Zero denominators *)
Lemma reduce_zero_den c1 c2 : (c1 <> 0 \/ c2 <> 0)%Z -> exists r, reduce c1 c2 0 = Ok r /\ tc r = 0%Z.
Proof.
  intros H. unfold reduce.
  destruct (Z.eqb_spec (Z.gcd (Z.gcd c1 c2) 0) 0) as [E|E].
  - apply gcd3_0 in E. lia.
  - rewrite Z.div_0_l by exact E. cbn [Z.ltb Z.compare]. eexists; split; reflexivity.
Qed.

Section Gen.
  Context {w : R} {add mul : tau -> tau -> res tau} (A : arith_ok w add mul).

  Lemma column_spec (m : vecs) n j : rect m n -> (j < n)%nat -> Forall wfv m ->
    exists c, column m j = Ok c /\ wfv c /\ vals w c = col (map (vals w) m) j /\ length c = length m.
  Proof.
    intros Hm Hj Hw. unfold column. induction Hm as [|r m Hr _ IH]; cbn [mapM].
    - exists []. split; [reflexivity|]. split; [apply Forall_nil|]. split; reflexivity.
    - inversion Hw as [|? ? Wr Wm]; subst. destruct (IH Wm) as (c & -> & Wc & Vc & Lc).
      unfold get. destruct (nth_error r j) as [x|] eqn:E.
      + cbn. exists (x :: c). split; [reflexivity|]. split.
        * constructor; [exact (wfv_nth r j x Wr E)|exact Wc].
        * cbn. split; [|congruence]. f_equal; [|exact Vc].
          symmetry. apply nth_error_nth. apply vals_nth; exact E.
      + apply nth_error_None in E. lia.
  Qed.

  Lemma mapM_evals {B} (f : B -> res tau) (F : B -> R) l :
    (forall x, In x l -> evals w (f x) (F x)) ->
    evalsv w (mapM f l) (map F l).
  Proof.
    induction l as [|x l IH]; intros H; cbn [mapM].
    - split; [constructor|reflexivity].
    - eapply evals_bind; [apply H; left; reflexivity|]. intros z Cz _ Vz.
      eapply evalsv_bind; [apply IH; intros; apply H; right; assumption|]. intros zs Czs _ Vzs.
      split; [constructor; assumption|]. cbn. rewrite Vz. f_equal. exact Vzs.
  Qed.

  Lemma mapM_evalsv_gen {B} (f : B -> res vec) (F : B -> list R) l :
    (forall x, In x l -> evalsv w (f x) (F x)) ->
    wp (mapM f l) (fun rs => Forall canonv rs /\ map (vals w) rs = map F l).
  Proof.
    induction l as [|x l IH]; intros H; cbn [mapM].
    - split; [constructor|reflexivity].
    - eapply evalsv_bind; [apply H; left; reflexivity|]. intros z Cz _ Vz.
      apply wp_bind. eapply wp_mono; [apply IH; intros; apply H; right; assumption|]. intros zs [Czs Vzs].
      split; [constructor; assumption|]. cbn. rewrite Vz, Vzs. reflexivity.
  Qed.

  Lemma dot_product_32_spec rows v : rows <> [] -> rect rows (length v) -> Forall wfv rows -> wfv v ->
    wp (dot_product_nd add mul (A3 rows) (A2 v))
       (fun o => exists r, o = Some (A2 r) /\ canonv r /\ vals w r = matvec (map (vals w) rows) (vals w v)).
  Proof.
    intros Hne Hr Hw Hv. cbn [dot_product_nd].
    rewrite (rect_ncols rows _ Hr Hne), Nat.eqb_refl. apply wp_bind.
    eapply wp_mono; [apply (mapM_evals _ (fun row => dot (vals w row) (vals w v)))|].
    - intros row Hin. rewrite Forall_forall in Hw. apply (acc0_spec A); auto.
      eapply Forall_forall in Hr; [|exact Hin]. cbn in Hr. lia.
    - intros r [C V]. cbn. exists r. split; [reflexivity|]. split; [exact C|].
      rewrite V. unfold matvec. rewrite map_map. reflexivity.
  Qed.

  Lemma dot_product_33_spec r1 r2 n : r1 <> [] -> r2 <> [] -> rect r1 (length r2) -> rect r2 n ->
    Forall wfv r1 -> Forall wfv r2 ->
    wp (dot_product_nd add mul (A3 r1) (A3 r2))
       (fun o => exists r, o = Some (A3 r) /\ Forall canonv r /\
          map (vals w) r = matmulR n (map (vals w) r1) (map (vals w) r2)).
  Proof.
    intros Hne1 Hne2 H1 H2 W1 W2. cbn [dot_product_nd].
    rewrite (rect_ncols r1 _ H1 Hne1), (rect_ncols r2 _ H2 Hne2), Nat.eqb_refl. apply wp_bind.
    eapply wp_mono; [apply (mapM_evalsv_gen _ (fun row => map (fun j => dot (vals w row) (col (map (vals w) r2) j)) (seq 0 n)))|].
    - intros row Hin. apply mapM_evals. intros j Hj. apply in_seq in Hj.
      destruct (column_spec r2 n j H2 ltac:(lia) W2) as (c & -> & Wc & Vc & Lc). cbn [bind].
      rewrite <- Vc. rewrite Forall_forall in W1. apply (acc0_spec A); auto.
      eapply Forall_forall in H1; [|exact Hin]. cbn in H1. lia.
    - intros r [C V]. cbn. exists r. split; [reflexivity|]. split; [exact C|].
      rewrite V. unfold matmulR. rewrite map_map. reflexivity.
  Qed.

  (** ** dot_product_1 with a 3-d second argument *)
  Lemma accz_bad_spec a row j x v : canon a -> wfv v -> nth_error row j = Some x ->
    evals w (accz_bad_ add mul a row j v) (val w a + IZR x * Rsum (vals w v)).
  Proof.
    intros Ca Hv Hx. revert a Ca. induction Hv as [|y ys Hy Hys IH]; intros a Ca; cbn [accz_bad_].
    - split; [exact Ca|]. cbn. lra.
    - unfold get. rewrite Hx. cbn [bind].
      eapply evals_bind; [apply (g_mul A); [apply wf_int|assumption]|]. intros b Cb Wb Vb.
      eapply evals_bind; [apply (g_add A); [apply canon_wf; exact Ca|assumption]|]. intros a' Ca' Wa' Va'.
      eapply wp_mono; [apply IH; exact Ca'|]. intros r [Cr Vr]. split; [exact Cr|].
      rewrite Vr, Va', Vb, val_int. cbn [vals map Rsum]. unfold vals. ring.
  Qed.

  Lemma dot_product_1_3d_value m rows2 n t : m <> [] -> rows2 <> [] -> rect m t -> t = length rows2 ->
    rect rows2 n -> (n <= t)%nat -> Forall wfv rows2 ->
    wp (dot_product_1_nd add mul m (A3 rows2))
       (fun o => exists r, o = Some (A3 r) /\ Forall canonv r /\
          map (vals w) r =
          map (fun row => map (fun j => IZR (nth j row 0%Z) * Rsum (col (map (vals w) rows2) j)) (seq 0 n)) m).
  Proof.
    intros Hne1 Hne2 H1 -> H2 Hle W2. cbn [dot_product_1_nd].
    rewrite (rect_ncols m _ H1 Hne1), (rect_ncols rows2 _ H2 Hne2), Nat.eqb_refl. apply wp_bind.
    eapply wp_mono; [apply (mapM_evalsv_gen _ (fun row => map (fun j => IZR (nth j row 0%Z) * Rsum (col (map (vals w) rows2) j)) (seq 0 n)))|].
    - intros row Hin. apply mapM_evals. intros j Hj. apply in_seq in Hj.
      destruct (column_spec rows2 n j H2 ltac:(lia) W2) as (c & -> & Wc & Vc & Lc). cbn [bind].
      assert (Hx : nth_error row j = Some (nth j row 0%Z)).
      { apply nth_error_nth'. eapply Forall_forall in H1; [|exact Hin]. cbn in H1. lia. }
      eapply wp_mono; [apply (accz_bad_spec t0 row j _ c canon_t0 Wc Hx)|].
      intros r [Cr Vr]. split; [exact Cr|]. rewrite Vr, Vc, val_t0. ring.
    - intros r [C V]. cbn. eauto.
  Qed.

  Lemma dot_product_1_3d_raise m rows2 n t : m <> [] -> rows2 <> [] -> rect m t -> t = length rows2 ->
    rect rows2 n -> (t < n)%nat -> Forall wfv rows2 ->
    dot_product_1_nd add mul m (A3 rows2) = Raise IndexError.
  Proof.
    intros Hne1 Hne2 H1 -> H2 Hle W2. cbn [dot_product_1_nd].
    rewrite (rect_ncols m _ H1 Hne1), (rect_ncols rows2 _ H2 Hne2), Nat.eqb_refl.
    destruct m as [|row m]; [congruence|]. cbn [mapM].
    pose proof (Forall_inv H1) as Lrow. cbn in Lrow.
    set (t := length rows2) in *.
    enough (E : mapM (fun j => bind (column rows2 j) (fun c => accz_bad_ add mul t0 row j c)) (seq 0 n) = Raise IndexError)
      by (rewrite E; reflexivity).
    replace n with (t + S (n - t - 1))%nat by lia. rewrite seq_app, mapM_app. cbn [plus].
    assert (E1 : exists l, mapM (fun j => bind (column rows2 j) (fun c => accz_bad_ add mul t0 row j c)) (seq 0 t) = Ok l).
    { enough (P : evalsv w (mapM (fun j => bind (column rows2 j) (fun c => accz_bad_ add mul t0 row j c)) (seq 0 t))
        (map (fun j => IZR (nth j row 0%Z) * Rsum (col (map (vals w) rows2) j)) (seq 0 t))).
      { destruct (mapM _ _); [eauto|contradiction]. }
      apply mapM_evals. intros j Hj. apply in_seq in Hj.
      destruct (column_spec rows2 n j H2 ltac:(lia) W2) as (c & -> & Wc & Vc & Lc). cbn [bind].
      assert (Hx : nth_error row j = Some (nth j row 0%Z)) by (apply nth_error_nth'; lia).
      eapply wp_mono; [apply (accz_bad_spec t0 row j _ c canon_t0 Wc Hx)|].
      intros r [Cr Vr]. split; [exact Cr|]. rewrite Vr, Vc, val_t0. ring. }
    destruct E1 as [l ->]. cbn [bind seq mapM].
    destruct (column_spec rows2 n t H2 Hle W2) as (c & -> & Wc & Vc & Lc). cbn [bind].
    destruct c as [|y c].
    - destruct rows2; [congruence|discriminate].
    - cbn [accz_bad_]. unfold get. rewrite (proj2 (nth_error_None row t)) by lia. reflexivity.
  Qed.

  (** ** Centroid of an object *)
  Lemma fold_centroids acc o : canonv acc -> length acc = 6%nat -> Forall (fun t => t <> [] /\ goods 6 t) o ->
    wp (foldM (fun tmp tet => bind (centroid_ add mul tet) (fun p => add_vectors_ add tmp p)) acc o)
       (fun r => canonv r /\ length r = 6%nat /\
          vals w r = vadd (vals w acc) (vsum 6 (map (fun t => mean 6 (map (vals w) t)) o))).
  Proof.
    intros Ca La Ho. revert acc Ca La. induction Ho as [|t o [Hne Ht] Ho IH]; intros acc Ca La; cbn [foldM].
    - split; [exact Ca|]. split; [exact La|]. cbn [map vsum]. rewrite vadd_zerov_r; [reflexivity|].
      rewrite vals_length; exact La.
    - apply wp_bind. eapply evalsv_bind; [apply (centroid_spec A); assumption|]. intros p Cp Wp Vp.
      assert (Lm : length (mean 6 (map (vals w) t)) = 6%nat).
      { apply mean_length. apply Forall_forall. intros x Hx. apply in_map_iff in Hx as (v & <- & Hv).
        rewrite vals_length. eapply Forall_forall in Ht; [|exact Hv]. apply Ht. }
      assert (Lp : length p = 6%nat) by (rewrite <- (vals_length w), Vp; exact Lm).
      eapply wp_mono; [apply (add_vectors_spec A); [apply canonv_wfv; exact Ca|exact Wp|lia]|].
      intros acc' [Ca' Va'].
      eapply wp_mono; [apply IH; [exact Ca'|]|].
      + rewrite <- (vals_length w), Va', vadd_length; rewrite !vals_length; lia.
      + intros r (Cr & Lr & Vr). split; [exact Cr|]. split; [exact Lr|].
        rewrite Vr, Va', Vp. cbn [map vsum]. apply vadd_assoc.
  Qed.

  Lemma centroid_obj_spec o : o <> [] -> Forall (fun t => t <> [] /\ goods 6 t) o ->
    evalsv w (centroid_obj_ add mul o) (mean 6 (map (fun t => mean 6 (map (vals w) t)) o)).
  Proof.
    intros Hne Ho. unfold centroid_obj_. apply wp_bind.
    eapply wp_mono; [apply (fold_centroids [t0;t0;t0;t0;t0;t0] o); [|reflexivity|exact Ho]|].
    - repeat first [apply Forall_nil | apply Forall_cons; [apply canon_t0|]].
    - intros s (Cs & Ls & Vs).
      assert (Hn : (Z.of_nat (length o) <> 0)%Z) by (destruct o; [congruence|cbn; lia]).
      eapply wp_mono; [apply (mul_vector_spec A); [apply canonv_wfv; exact Cs|exact Hn]|].
      intros r [Cr Vr]. split; [exact Cr|]. rewrite Vr, Vs. unfold mean at 2. rewrite map_length.
      assert (E : val w (T 1 0 (Z.of_nat (length o))) = / INR (length o)).
      { unfold val; cbn [ta tb tc]. rewrite <- INR_IZR_INZ. field. apply not_0_INR. lia. }
      rewrite E. f_equal.
      replace (vals w [t0;t0;t0;t0;t0;t0]) with (zerov 6) by (cbn; rewrite !val_t0; reflexivity).
      apply vadd_zerov_l. apply vsum_length. apply Forall_forall. intros x Hx.
      apply in_map_iff in Hx as (t & <- & Ht). apply mean_length. apply Forall_forall. intros y Hy.
      apply in_map_iff in Hy as (v & <- & Hv). rewrite vals_length.
      eapply Forall_forall in Ho; [|exact Ht]. destruct Ho as [_ Ho].
      eapply Forall_forall in Ho; [|exact Hv]. apply Ho.
  Qed.
End Gen.
