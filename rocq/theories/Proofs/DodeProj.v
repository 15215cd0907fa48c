(** Projections, similarity and areas of dode2. *)
From Coq Require Import Reals List ZArith Lia Lra Bool Permutation Psatz.
From Verif Require Import Base.Res Model.Tau Model.Arr Model.DodeScalar Model.Vectors Model.IcoMath1 Model.DodeMath1
  Model.DodeSymmetry Model.Sign Model.DodeArea
  Spec.Value Spec.RVec Spec.Shape Spec.IcoSpec Spec.DodeSpec
  Proofs.ResLemmas Proofs.ValueLemmas Proofs.Irrational Proofs.ScalarLemmas Proofs.RVecLemmas Proofs.VectorLemmas
  Proofs.SymopLemmas Proofs.MatLemmas Proofs.MatDec Proofs.GroupLemmas Proofs.SignLemmas Proofs.IcoProj.
Import ListNotations.
Local Open Scope R_scope.

Lemma dconst_wf : wf M0 /\ wf M1 /\ wf M4 /\ wf M5 /\ wf M6.
Proof. unfold wf; cbn; repeat split; lia. Qed.
Lemma val_M0 : val SIN M0 = 0. Proof. unfold val; cbn [ta tb tc M0]; lra. Qed.
Lemma val_M1 : val SIN M1 = 1. Proof. unfold val; cbn [ta tb tc M1]; lra. Qed.
Lemma val_M4 : val SIN M4 = -1/2. Proof. unfold val; cbn [ta tb tc M4]; lra. Qed.
Lemma val_M5 : val SIN M5 = SIN. Proof. unfold val; cbn [ta tb tc M5]; lra. Qed.
Lemma val_M6 : val SIN M6 = - SIN. Proof. unfold val; cbn [ta tb tc M6]; lra. Qed.

Lemma drow_spec a1 a2 a3 a4 a5 a6 v r :
  wf a1 -> wf a2 -> wf a3 -> wf a4 -> wf a5 -> wf a6 -> good 6 v ->
  vals SIN [a1;a2;a3;a4;a5;a6] = r ->
  evals SIN (dmtrixcal a1 a2 a3 a4 a5 a6 v) (dot r (vals SIN v)).
Proof.
  intros ? ? ? ? ? ? [Hv Lv] <-. apply (mtrixcal_spec dode_arith); assumption.
Qed.

Ltac drow := eapply evals_bind;
  [eapply drow_spec; [apply dconst_wf..|eassumption|
     cbn [vals map]; rewrite ?val_M0, ?val_M1, ?val_M4, ?val_M5, ?val_M6; reflexivity]|].

Lemma dprojection3_spec v : good 6 v -> evalsv SIN (dprojection3 v) (dperp (vals SIN v)).
Proof.
  intros Hv. unfold dprojection3.
  drow. intros x1 C1 _ V1. drow. intros x2 C2 _ V2. drow. intros x3 C3 _ V3.
  split; [repeat (apply Forall_cons; [assumption|]); apply Forall_nil|].
  cbn [vals map]. rewrite V1, V2, V3. reflexivity.
Qed.

Lemma dprojection_spec v : good 6 v ->
  wp (dprojection v) (fun r => canonv (fst r) /\ canonv (snd r) /\
     vals SIN (fst r) = dpar (vals SIN v) /\ vals SIN (snd r) = dperp (vals SIN v)).
Proof.
  intros Hv. unfold dprojection.
  drow. intros x1 C1 _ V1. drow. intros x2 C2 _ V2. drow. intros x3 C3 _ V3.
  drow. intros x4 C4 _ V4. drow. intros x5 C5 _ V5. drow. intros x6 C6 _ V6.
  cbn [wp fst snd].
  split; [repeat (apply Forall_cons; [assumption|]); apply Forall_nil|].
  split; [repeat (apply Forall_cons; [assumption|]); apply Forall_nil|].
  cbn [vals map]. rewrite V1, V2, V3, V4, V5, V6. split; reflexivity.
Qed.

Lemma dprojection3_snd v e i : good 6 v -> dprojection v = Ok (e, i) -> dprojection3 v = Ok i.
Proof.
  intros Hv H. pose proof (dprojection_spec v Hv) as Hs. rewrite H in Hs. cbn in Hs.
  destruct Hs as (_ & Ci & _ & Vi).
  apply (evalsv_Ok SIN_irrational (dprojection3_spec v Hv)); assumption.
Qed.

Lemma dperp_linear k l x y : length x = 6%nat -> length y = 6%nat ->
  dperp (vadd (vscale k x) (vscale l y)) = vadd (vscale k (dperp x)) (vscale l (dperp y)).
Proof.
  intros Lx Ly. unfold dperp. rewrite matvec_vadd by (rewrite !vscale_length; lia).
  rewrite !matvec_vscale. reflexivity.
Qed.
Lemma dpar_linear k l x y : length x = 6%nat -> length y = 6%nat ->
  dpar (vadd (vscale k x) (vscale l y)) = vadd (vscale k (dpar x)) (vscale l (dpar y)).
Proof.
  intros Lx Ly. unfold dpar. rewrite matvec_vadd by (rewrite !vscale_length; lia).
  rewrite !matvec_vscale. reflexivity.
Qed.

(** Both projections together determine the vector. *)
Lemma dproj_injective x y : length x = 6%nat -> length y = 6%nat ->
  dpar x = dpar y -> dperp x = dperp y -> x = y.
Proof.
  intros Lx Ly H K. len6 x; len6 y. unfold dpar, dperp, dpar_rows, dperp_rows, matvec, dot in H, K.
  cbn in H, K. injection H as A1 A2 A3. injection K as B1 B2 B3.
  pose proof SIN_bounds as Hb. repeat f_equal; nra.
Qed.

Lemma dperp_rational_inj x y : length x = 6%nat -> length y = 6%nat ->
  Forall rational x -> Forall rational y ->
  (dperp x = dperp y <-> firstn 4 x = firstn 4 y /\ nth 5 x 0 = nth 5 y 0).
Proof.
  intros Lx Ly Hx Hy.
  destruct x as [|x1 [|x2 [|x3 [|x4 [|x5 [|x6 [|]]]]]]]; try discriminate.
  destruct y as [|y1 [|y2 [|y3 [|y4 [|y5 [|y6 [|]]]]]]]; try discriminate.
  repeat match goal with H : Forall rational (_ :: _) |- _ => inversion H; clear H; subst end.
  unfold dperp, dperp_rows, matvec, dot. cbn. split.
  - intros H. injection H as E1 E2 E3.
    assert (R2 : rational (1/2)) by (exists 1%Z, 2%Z; split; [lia|lra]).
    assert (Rh : forall a b, rational a -> rational b -> rational (1/2*(a-b))).
    { intros a b Ha Hb. destruct (rational_minus a b Ha Hb) as (p & q & Hq & ->).
      exists p, (2*q)%Z. split; [lia|]. rewrite mult_IZR. field. apply not_0_IZR; exact Hq. }
    destruct (rational_indep SIN ((x2-y2)-(1/2*(x4-y4))) (y1-x1)) as [A1 A2];
      [exact SIN_irrational| | |lra|].
    { apply rational_minus; [apply rational_minus; assumption|apply Rh; assumption]. }
    { apply rational_minus; assumption. }
    destruct (rational_indep SIN ((x3-y3)-(1/2*(x1-y1))) (y4-x4)) as [B1 B2];
      [exact SIN_irrational| | |lra|].
    { apply rational_minus; [apply rational_minus; assumption|apply Rh; assumption]. }
    { apply rational_minus; assumption. }
    split; [repeat f_equal; lra|lra].
  - intros [K1 K2]. injection K1 as -> -> -> ->. subst y6. repeat (apply f_equal2; [ring|]); reflexivity.
Qed.

(** ** Areas *)
Lemma perp_plane2 x : exists a b, perp_plane x = [a;b].
Proof. unfold perp_plane, dperp, dperp_rows. cbn. eauto. Qed.

Lemma dgood_canon n v : canonv v -> length v = n -> good n v.
Proof. intros; split; [apply canonv_wfv|]; assumption. Qed.

Lemma triangle_area_spec q0 q1 q2 : good 3 q0 -> good 3 q1 -> good 3 q2 ->
  evals SIN (triangle_area [q0;q1;q2]) (triarea (map (fun q => firstn 2 (vals SIN q)) [q0;q1;q2])).
Proof.
  intros [W0 L0] [W1 L1] [W2 L2]. unfold triangle_area. cbn [get nth_error bind map].
  eapply evalsv_bind; [apply (sub_vectors_spec dode_arith); [exact W1|exact W0|lia]|]. intros v1 _ Wv1 V1.
  eapply evalsv_bind; [apply (sub_vectors_spec dode_arith); [exact W2|exact W0|lia]|]. intros v2 _ Wv2 V2.
  assert (Lv : forall v q, vals SIN v = vsub (vals SIN q) (vals SIN q0) -> length q = 3%nat -> length v = 3%nat).
  { intros v q E Lq. rewrite <- (vals_length SIN), E, vsub_length; rewrite !vals_length; lia. }
  pose proof (Lv _ _ V1 L1) as Lv1. pose proof (Lv _ _ V2 L2) as Lv2.
  eapply evalsv_bind; [apply (outer_product_spec dode_arith); assumption|]. intros c Cc Wc Vc.
  rewrite V1, V2 in Vc. clear V1 V2.
  destruct q0 as [|? [|? [|? [|]]]]; try discriminate.
  destruct q1 as [|? [|? [|? [|]]]]; try discriminate.
  destruct q2 as [|? [|? [|? [|]]]]; try discriminate.
  unfold vsub in Vc. cbn [vals map zipWith cross] in Vc.
  destruct c as [|c0 [|c1 [|z [|]]]]; try discriminate. cbn [map] in Vc. injection Vc as _ _ Vz.
  cbn [get nth_error bind vals map firstn triarea]. rewrite <- Vz.
  assert (Cz : canon z) by (inversion Cc as [|? ? ? C1]; inversion C1 as [|? ? ? C2]; inversion C2; assumption).
  pose proof (canon_wf _ Cz) as Wz.
  assert (K1 : wf (T (-1) 0 2) /\ wf (T 1 0 2)) by (unfold wf; cbn; lia). destruct K1 as [K1 K2].
  assert (HN : neg_sqrt 3 (2 * ta z) (tb z) = neg_sin z).
  { unfold neg_sin. destruct Cz as [Hc _]. destruct (Z.ltb_spec (tc z) 0); [lia|reflexivity]. }
  rewrite HN. destruct (neg_sin z) eqn:E.
  - apply neg_sin_spec in E; [|exact Wz].
    eapply wp_mono; [apply (g_mul dode_arith); assumption|]. intros r [Cr Vr]. split; [exact Cr|].
    rewrite Vr, Rabs_left by exact E. unfold val at 2. cbn [ta tb tc]. field.
  - assert (0 <= val SIN z).
    { apply Rnot_lt_le. intros H. apply neg_sin_spec in H; [congruence|exact Wz]. }
    eapply wp_mono; [apply (g_mul dode_arith); assumption|]. intros r [Cr Vr]. split; [exact Cr|].
    rewrite Vr, Rabs_pos_eq by assumption. unfold val at 2. cbn [ta tb tc]. field.
Qed.

Lemma triarea6_spec t : length t = 3%nat -> goods 6 t -> evals SIN (triangle_area_6d_3 t) (parea t).
Proof.
  intros L H. destruct t as [|q0 [|q1 [|q2 [|]]]]; try discriminate.
  pose proof (Forall_inv H) as G0. pose proof (Forall_inv (Forall_inv_tail H)) as G1.
  pose proof (Forall_inv (Forall_inv_tail (Forall_inv_tail H))) as G2.
  unfold triangle_area_6d_3. cbn [get nth_error bind].
  assert (P : forall q r, vals SIN r = dperp (vals SIN q) -> canonv r -> good 3 r).
  { intros q r E C. apply dgood_canon; [exact C|]. rewrite <- (vals_length SIN), E. reflexivity. }
  eapply evalsv_bind; [apply dprojection3_spec; exact G0|]. intros v0 C0 _ V0.
  eapply evalsv_bind; [apply dprojection3_spec; exact G1|]. intros v1 C1 _ V1.
  eapply evalsv_bind; [apply dprojection3_spec; exact G2|]. intros v2 C2 _ V2.
  eapply wp_mono; [apply triangle_area_spec; eapply P; eassumption|].
  intros r [Cr Vr]. split; [exact Cr|]. rewrite Vr. unfold parea. cbn [map]. rewrite V0, V1, V2. reflexivity.
Qed.

Definition pairs (l : list (list R)) := Forall (fun p => length p = 2%nat) l.

Lemma triarea_perm l l' : Permutation l l' -> pairs l -> triarea l = triarea l'.
Proof.
  assert (SW : forall p q r : list R, length p = 2%nat -> length q = 2%nat -> length r = 2%nat ->
    triarea [p;q;r] = triarea [q;p;r] /\ triarea [p;q;r] = triarea [p;r;q]).
  { intros p q r Lp Lq Lr. destruct p as [|? [|? [|]]]; try discriminate. destruct q as [|? [|? [|]]]; try discriminate.
    destruct r as [|? [|? [|]]]; try discriminate. cbn [triarea].
    split; f_equal; rewrite <- Rabs_Ropp; f_equal; ring. }
  intros P H. destruct l as [|p [|q [|r [|s l]]]].
  - apply Permutation_nil in P. subst; reflexivity.
  - apply Permutation_length_1_inv in P. subst; reflexivity.
  - pose proof (Permutation_length P) as L. destruct l' as [|? [|? [|]]]; try discriminate.
    destruct p as [|? [|? [|]]]; try reflexivity; unfold triarea; repeat match goal with |- context[match ?x with [] => _ | _ => _ end] => destruct x end; reflexivity.
  - pose proof (Forall_inv H) as Hp. pose proof (Forall_inv (Forall_inv_tail H)) as Hq.
    pose proof (Forall_inv (Forall_inv_tail (Forall_inv_tail H))) as Hr. cbn beta in *.
    pose proof (Permutation_length P) as L. destruct l' as [|p' [|q' [|r' [|]]]]; try discriminate.
    assert (Hp' : In p' [p;q;r]) by (apply (Permutation_in _ (Permutation_sym P)); left; reflexivity).
    destruct Hp' as [-> | [-> | [-> | []]]].
    + apply Permutation_cons_inv in P. apply Permutation_length_2_inv in P as [E | E]; injection E as -> ->; [reflexivity|].
      apply (SW p' q r Hp Hq Hr).
    + assert (P' : Permutation (p' :: [p;r]) (p' :: [q';r'])) by (etransitivity; [apply perm_swap|exact P]).
      apply Permutation_cons_inv in P'. apply Permutation_length_2_inv in P' as [E | E]; injection E as -> ->.
      * apply (SW p p' r Hp Hq Hr).
      * rewrite (proj1 (SW p p' r Hp Hq Hr)). apply (SW p' p r Hq Hp Hr).
    + assert (P' : Permutation (p' :: [p;q]) (p' :: [q';r'])).
      { etransitivity; [|exact P]. etransitivity; [apply perm_swap|]. apply perm_skip. apply perm_swap. }
      apply Permutation_cons_inv in P'. apply Permutation_length_2_inv in P' as [E | E]; injection E as -> ->.
      * rewrite (proj2 (SW p q p' Hp Hq Hr)). apply (SW p p' q Hp Hr Hq).
      * rewrite (proj1 (SW p q p' Hp Hq Hr)), (proj2 (SW q p p' Hq Hp Hr)). apply (SW q p' p Hq Hr Hp).
  - pose proof (Permutation_length P) as L. destruct l' as [|? [|? [|? [|]]]]; try discriminate.
    unfold triarea; repeat match goal with |- context[match ?x with [] => _ | _ => _ end] => destruct x end; reflexivity.
Qed.

Lemma triarea_nonneg l : 0 <= triarea l.
Proof.
  unfold triarea. repeat match goal with |- context[match ?x with [] => _ | _ => _ end] => destruct x end; try lra;
  match goal with |- context[Rabs ?e] => pose proof (Rabs_pos e); lra end.
Qed.

Lemma triarea_zero p q r : length p = 2%nat -> length q = 2%nat -> length r = 2%nat ->
  triarea [p;q;r] = 0 <-> collinear2 [p;q;r].
Proof.
  intros Lp Lq Lr. destruct p as [|x0 [|y0 [|]]]; try discriminate. destruct q as [|x1 [|y1 [|]]]; try discriminate.
  destruct r as [|x2 [|y2 [|]]]; try discriminate. cbn [triarea]. unfold collinear2. split.
  - intros H. assert (E : (x1-x0)*(y2-y0) - (y1-y0)*(x2-x0) = 0).
    { destruct (Req_dec ((x1-x0)*(y2-y0) - (y1-y0)*(x2-x0)) 0) as [|N]; [assumption|].
      apply Rabs_pos_lt in N. lra. }
    destruct (Req_dec (x1-x0) 0) as [Ex|Nx]; [destruct (Req_dec (y1-y0) 0) as [Ey|Ny]|].
    + destruct (Req_dec (x2-x0) 0) as [Fx|Mx]; [destruct (Req_dec (y2-y0) 0) as [Fy|My]|].
      * exists [1;0], x0. split; [reflexivity|]. split; [intros K; injection K; lra|].
        repeat constructor; unfold dot; cbn; lra.
      * exists [y2-y0; -(x2-x0)], ((y2-y0)*x0-(x2-x0)*y0). split; [reflexivity|]. split; [intros K; injection K; lra|].
        repeat constructor; unfold dot; cbn; nra.
      * exists [y2-y0; -(x2-x0)], ((y2-y0)*x0-(x2-x0)*y0). split; [reflexivity|]. split; [intros K; injection K; lra|].
        repeat constructor; unfold dot; cbn; nra.
    + exists [y1-y0; -(x1-x0)], ((y1-y0)*x0-(x1-x0)*y0). split; [reflexivity|]. split; [intros K; injection K; lra|].
      repeat constructor; unfold dot; cbn; nra.
    + exists [y1-y0; -(x1-x0)], ((y1-y0)*x0-(x1-x0)*y0). split; [reflexivity|]. split; [intros K; injection K; lra|].
      repeat constructor; unfold dot; cbn; nra.
  - intros (n & d & Ln & Nn & H). destruct n as [|a [|b [|]]]; try discriminate.
    pose proof (Forall_inv H) as H0. pose proof (Forall_inv (Forall_inv_tail H)) as H1.
    pose proof (Forall_inv (Forall_inv_tail (Forall_inv_tail H))) as H2. unfold dot in H0, H1, H2. cbn in H0, H1, H2.
    assert (E : (x1-x0)*(y2-y0) - (y1-y0)*(x2-x0) = 0).
    { assert (Ea : a * ((x1-x0)*(y2-y0) - (y1-y0)*(x2-x0)) = 0).
      { replace (a * ((x1-x0)*(y2-y0) - (y1-y0)*(x2-x0)))
          with ((a*(x1-x0)+b*(y1-y0))*(y2-y0) - (a*(x2-x0)+b*(y2-y0))*(y1-y0)) by ring.
        replace (a*(x1-x0)+b*(y1-y0)) with 0 by lra. replace (a*(x2-x0)+b*(y2-y0)) with 0 by lra. ring. }
      assert (Eb : b * ((x1-x0)*(y2-y0) - (y1-y0)*(x2-x0)) = 0).
      { replace (b * ((x1-x0)*(y2-y0) - (y1-y0)*(x2-x0)))
          with ((a*(x2-x0)+b*(y2-y0))*(x1-x0) - (a*(x1-x0)+b*(y1-y0))*(x2-x0)) by ring.
        replace (a*(x1-x0)+b*(y1-y0)) with 0 by lra. replace (a*(x2-x0)+b*(y2-y0)) with 0 by lra. ring. }
      apply Rmult_integral in Ea as [-> | Ea]; [|exact Ea]. apply Rmult_integral in Eb as [-> | Eb]; [|exact Eb].
      exfalso; apply Nn; reflexivity. }
    rewrite E, Rabs_R0. lra.
Qed.
