(** Projections of ico2. *)
From Coq Require Import Reals List ZArith Lia Lra Bool.
From Verif Require Import Base.Res Model.Tau Model.Arr Model.IcoScalar Model.Vectors Model.IcoMath1
  Spec.Value Spec.RVec Spec.Shape Spec.IcoSpec
  Proofs.ResLemmas Proofs.ValueLemmas Proofs.Irrational Proofs.ScalarLemmas Proofs.RVecLemmas Proofs.VectorLemmas
  Proofs.SymopLemmas.
Import ListNotations.
Local Open Scope R_scope.

Ltac len6 v := destruct v as [|? [|? [|? [|? [|? [|? [|]]]]]]]; try discriminate.
Ltac len3 v := destruct v as [|? [|? [|? [|]]]]; try discriminate.
Ltac unvec := unfold matvec, norm2, dot, vadd, vsub, vscale; cbn [map zipWith Rsum].

Lemma const_wf : wf m0 /\ wf m1 /\ wf m2 /\ wf m3 /\ wf m4 /\ wf p1 /\ wf p2 /\ wf p3.
Proof. unfold wf; cbn; repeat split; lia. Qed.

Lemma val_m0 : val TAU m0 = 0. Proof. unfold val; cbn [ta tb tc m0]; lra. Qed.
Lemma val_m1 : val TAU m1 = 1. Proof. unfold val; cbn [ta tb tc m1]; lra. Qed.
Lemma val_m2 : val TAU m2 = -1. Proof. unfold val; cbn [ta tb tc m2]; lra. Qed.
Lemma val_m3 : val TAU m3 = TAU. Proof. unfold val; cbn [ta tb tc m3]; lra. Qed.
Lemma val_m4 : val TAU m4 = - TAU. Proof. unfold val; cbn [ta tb tc m4]; lra. Qed.

Lemma row_spec a1 a2 a3 a4 a5 a6 v r :
  wf a1 -> wf a2 -> wf a3 -> wf a4 -> wf a5 -> wf a6 -> good 6 v ->
  vals TAU [a1;a2;a3;a4;a5;a6] = r ->
  evals TAU (mtrixcal a1 a2 a3 a4 a5 a6 v) (dot r (vals TAU v)).
Proof.
  intros ? ? ? ? ? ? [Hv Lv] <-. apply (mtrixcal_spec ico_arith); assumption.
Qed.

Ltac row := eapply evals_bind;
  [eapply row_spec; [apply const_wf..|eassumption|
     cbn [vals map]; rewrite ?val_m0, ?val_m1, ?val_m2, ?val_m3, ?val_m4; reflexivity]|].

Lemma projection3_spec v : good 6 v -> evalsv TAU (projection3 v) (perp (vals TAU v)).
Proof.
  intros Hv. unfold projection3.
  row. intros x1 C1 _ V1. row. intros x2 C2 _ V2. row. intros x3 C3 _ V3.
  split; [repeat (apply Forall_cons; [assumption|]); apply Forall_nil|].
  cbn [vals map]. rewrite V1, V2, V3. reflexivity.
Qed.

Lemma projection_spec v : good 6 v ->
  wp (projection v) (fun r => canonv (fst r) /\ canonv (snd r) /\
     vals TAU (fst r) = par (vals TAU v) /\ vals TAU (snd r) = perp (vals TAU v)).
Proof.
  intros Hv. unfold projection.
  row. intros x1 C1 _ V1. row. intros x2 C2 _ V2. row. intros x3 C3 _ V3.
  row. intros x4 C4 _ V4. row. intros x5 C5 _ V5. row. intros x6 C6 _ V6.
  cbn [wp fst snd].
  split; [repeat (apply Forall_cons; [assumption|]); apply Forall_nil|].
  split; [repeat (apply Forall_cons; [assumption|]); apply Forall_nil|].
  cbn [vals map]. rewrite V1, V2, V3, V4, V5, V6. split; reflexivity.
Qed.

Lemma projection3_snd v e i : good 6 v -> projection v = Ok (e, i) -> projection3 v = Ok i.
Proof.
  intros Hv H. pose proof (projection_spec v Hv) as Hs. rewrite H in Hs. cbn in Hs.
  destruct Hs as (_ & Ci & _ & Vi).
  apply (evalsv_Ok TAU_irrational (projection3_spec v Hv)); assumption.
Qed.

(** ** Geometry of the projections *)
Lemma norm_split x : length x = 6%nat ->
  norm2 (par x) + norm2 (perp x) = (4 + 2*TAU) * norm2 x.
Proof.
  intros L; len6 x. unfold par, perp, par_rows, perp_rows. unvec.
  ring [TAU_sq].
Qed.

Lemma rows_orthogonal i j r s :
  nth_error (par_rows ++ perp_rows) i = Some r -> nth_error (par_rows ++ perp_rows) j = Some s ->
  dot r s = if Nat.eqb i j then 4 + 2*TAU else 0.
Proof.
  unfold par_rows, perp_rows; cbn [app].
  do 6 (destruct i as [|i]; [do 6 (destruct j as [|j];
     [cbn; intros [= <-] [= <-]; cbn; ring [TAU_sq]|]); cbn; destruct j; discriminate|]).
  cbn; destruct i; discriminate.
Qed.

Lemma perp_linear k l x y : length x = 6%nat -> length y = 6%nat ->
  perp (vadd (vscale k x) (vscale l y)) = vadd (vscale k (perp x)) (vscale l (perp y)).
Proof.
  intros Lx Ly. unfold perp. rewrite matvec_vadd by (rewrite !vscale_length; lia).
  rewrite !matvec_vscale. reflexivity.
Qed.

Lemma par_linear k l x y : length x = 6%nat -> length y = 6%nat ->
  par (vadd (vscale k x) (vscale l y)) = vadd (vscale k (par x)) (vscale l (par y)).
Proof.
  intros Lx Ly. unfold par. rewrite matvec_vadd by (rewrite !vscale_length; lia).
  rewrite !matvec_vscale. reflexivity.
Qed.

Lemma proj_injective x : length x = 6%nat ->
  par x = [0;0;0] -> perp x = [0;0;0] -> x = [0;0;0;0;0;0].
Proof.
  intros L Hp Hq. pose proof (norm_split x L) as H. rewrite Hp, Hq in H.
  replace (norm2 [0;0;0]) with 0 in H by (unvec; ring).
  assert (norm2 x = 0) by (pose proof TAU_bounds; nra).
  apply norm2_zero in H0. rewrite H0. len6 x. cbn. repeat f_equal; ring.
Qed.

(** ** Rational vectors *)
Lemma rational_minus a b : rational a -> rational b -> rational (a - b).
Proof.
  intros (p & q & Hq & ->) (r & s & Hs & ->).
  exists (p*s - r*q)%Z, (q*s)%Z. split; [nia|].
  rewrite minus_IZR, !mult_IZR. field; split; apply not_0_IZR; assumption.
Qed.
Lemma rational_plus a b : rational a -> rational b -> rational (a + b).
Proof.
  intros (p & q & Hq & ->) (r & s & Hs & ->).
  exists (p*s + r*q)%Z, (q*s)%Z. split; [nia|].
  rewrite plus_IZR, !mult_IZR. field; split; apply not_0_IZR; assumption.
Qed.

Lemma rational_indep w a b : irrational w -> rational a -> rational b -> a + b * w = 0 -> a = 0 /\ b = 0.
Proof.
  intros Hw (p & q & Hq & ->) (r & s & Hs & ->) H.
  assert (IZR q <> 0) by (apply not_0_IZR; assumption).
  assert (IZR s <> 0) by (apply not_0_IZR; assumption).
  assert (E : IZR (p*s) + IZR (r*q) * w = 0).
  { rewrite !mult_IZR.
    transitivity ((IZR p / IZR q + IZR r / IZR s * w) * (IZR q * IZR s)); [field; auto|rewrite H; ring]. }
  apply Hw in E as [E1 E2].
  assert (p = 0%Z) as -> by nia. assert (r = 0%Z) as -> by nia.
  split; field; assumption.
Qed.

Lemma perp_rational_zero x : length x = 6%nat -> Forall rational x ->
  perp x = [0;0;0] -> x = [0;0;0;0;0;0].
Proof.
  intros L Hx H. destruct x as [|x1 [|x2 [|x3 [|x4 [|x5 [|x6 [|]]]]]]]; try discriminate.
  repeat match goal with H : Forall rational (_ :: _) |- _ => inversion H; clear H; subst end.
  unfold perp, perp_rows, matvec, dot in H. cbn in H. injection H as E1 E2 E3.
  destruct (rational_indep TAU (0-(x2+x3)) (x1-x5)) as [A1 A2];
    [exact TAU_irrational| | |lra|].
  { apply rational_minus; [exists 0%Z, 1%Z; split; [lia|lra]|apply rational_plus; assumption]. }
  { apply rational_minus; assumption. }
  destruct (rational_indep TAU (0-(x1+x5)) (x4+x6)) as [B1 B2];
    [exact TAU_irrational| | |lra|].
  { apply rational_minus; [exists 0%Z, 1%Z; split; [lia|lra]|apply rational_plus; assumption]. }
  { apply rational_plus; assumption. }
  destruct (rational_indep TAU (x4-x6) (x2-x3)) as [D1 D2];
    [exact TAU_irrational| | |lra|].
  { apply rational_minus; assumption. }
  { apply rational_minus; assumption. }
  repeat f_equal; lra.
Qed.

Lemma perp_rational_inj x y : length x = 6%nat -> length y = 6%nat ->
  Forall rational x -> Forall rational y -> perp x = perp y -> x = y.
Proof.
  intros Lx Ly Hx Hy H.
  assert (E : vsub x y = [0;0;0;0;0;0]).
  { apply perp_rational_zero.
    - rewrite vsub_length; lia.
    - clear H. revert y Lx Ly Hy. clear -Hx. intros y Lx Ly Hy. rewrite <- Ly in Lx. clear Ly.
      revert y Lx Hy. induction Hx as [|a x Ha _ IH]; intros [|b y] L Hy; cbn in *; try discriminate; constructor.
      + inversion Hy; subst. apply rational_minus; assumption.
      + inversion Hy; subst. apply IH; [lia|assumption].
    - unfold perp in *. rewrite matvec_vsub by lia. rewrite H, vsub_self. unfold perp_rows; cbn. repeat f_equal; ring. }
  len6 x. len6 y. cbn in E. injection E as E1 E2 E3 E4 E5 E6. repeat f_equal; lra.
Qed.

(** ** projection_perp *)
Definition projector_rows : list (list R) :=
  let a := 1/2 in let b := (2*TAU-1)/10 in
  [[a;-b;-b;-b;-b;-b];
   [-b;a;-b;b;b;-b];
   [-b;-b;a;-b;b;b];
   [-b;b;-b;a;-b;b];
   [-b;b;b;-b;a;-b];
   [-b;-b;b;b;-b;a]].

Lemma val_p1 : val TAU p1 = 1/2. Proof. unfold val; cbn [ta tb tc p1]; lra. Qed.
Lemma val_p2 : val TAU p2 = (2*TAU-1)/10. Proof. unfold val; cbn [ta tb tc p2]; lra. Qed.
Lemma val_p3 : val TAU p3 = -((2*TAU-1)/10). Proof. unfold val; cbn [ta tb tc p3]; lra. Qed.

Ltac rowp := eapply evals_bind;
  [eapply row_spec; [apply const_wf..|eassumption|
     cbn [vals map]; rewrite ?val_p1, ?val_p2, ?val_p3; reflexivity]|].

Lemma projection_perp_spec v : good 6 v ->
  evalsv TAU (projection_perp v) (matvec projector_rows (vals TAU v)).
Proof.
  intros Hv. unfold projection_perp.
  rowp. intros x1 C1 _ V1. rowp. intros x2 C2 _ V2. rowp. intros x3 C3 _ V3.
  rowp. intros x4 C4 _ V4. rowp. intros x5 C5 _ V5. rowp. intros x6 C6 _ V6.
  split; [repeat (apply Forall_cons; [assumption|]); apply Forall_nil|].
  cbn [vals map]. rewrite V1, V2, V3, V4, V5, V6. reflexivity.
Qed.

Ltac vec_eq := repeat (apply f_equal2; [field [TAU_sq]|]); reflexivity.

Lemma projector_par x : length x = 6%nat -> par (matvec projector_rows x) = [0;0;0].
Proof.
  intros L; len6 x. unfold par, par_rows, projector_rows. unvec. vec_eq.
Qed.
Lemma projector_perp x : length x = 6%nat -> perp (matvec projector_rows x) = perp x.
Proof.
  intros L; len6 x. unfold perp, perp_rows, projector_rows. unvec. vec_eq.
Qed.
Lemma projector_idem x : length x = 6%nat ->
  matvec projector_rows (matvec projector_rows x) = matvec projector_rows x.
Proof.
  intros L; len6 x. unfold projector_rows. unvec. vec_eq.
Qed.
Lemma projector_selfadj x y : length x = 6%nat -> length y = 6%nat ->
  dot (matvec projector_rows x) y = dot x (matvec projector_rows y).
Proof.
  intros Lx Ly; len6 x; len6 y. unfold projector_rows. unvec. field.
Qed.
Lemma projector_fix x : length x = 6%nat ->
  (matvec projector_rows x = x <-> par x = [0;0;0]).
Proof.
  intros L. split; intros H.
  - rewrite <- H. apply projector_par; exact L.
  - assert (E : vsub (matvec projector_rows x) x = [0;0;0;0;0;0]).
    { assert (L' : length (matvec projector_rows x) = length x) by (rewrite matvec_length, L; reflexivity).
      apply proj_injective.
      - rewrite vsub_length; lia.
      - unfold par in *. rewrite matvec_vsub by exact L'. fold (par (matvec projector_rows x)).
        rewrite projector_par by exact L. rewrite H. cbn. repeat f_equal; ring.
      - unfold perp in *. rewrite matvec_vsub by exact L'. fold (perp (matvec projector_rows x)).
        rewrite projector_perp by exact L. unfold perp. rewrite vsub_self. unfold perp_rows; cbn. repeat f_equal; ring. }
    revert E. generalize (matvec_length projector_rows x). generalize (matvec projector_rows x) as y.
    intros y Ly E. change (length projector_rows) with 6%nat in Ly.
    len6 x; len6 y. cbn in E. injection E as E1 E2 E3 E4 E5 E6. repeat f_equal; lra.
Qed.
