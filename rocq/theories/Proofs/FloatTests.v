(** The two geometric tests of ico2/numericalc.py in binary64. *)
From Coq Require Import Reals List ZArith Bool Lia Lra Psatz.
From Flocq Require Import Core IEEE754.BinarySingleNaN IEEE754.Binary IEEE754.Bits.
From Verif Require Import Base.Res Model.Tau Model.Arr Model.Num Model.IcoNumeric Model.IcoIntersect Spec.LinAlg Spec.Value Spec.RVec Spec.Shape Spec.IcoSpec Spec.Sets Spec.Space Spec.Tetra Spec.Region Spec.Overlap Spec.Float
  Proofs.ResLemmas Proofs.RVecLemmas Proofs.Irrational Proofs.NumLemmas Proofs.RoundLemmas Proofs.FloatCalc Proofs.FloatGeom Proofs.IntersectLemmas Proofs.P_Numeric Proofs.P_Intersect Proofs.Polytope Proofs.OverlapLemmas.
Import ListNotations.
Local Open Scope R_scope.
Local Notation Bnum := Bmath.

Section Lib.
Context {la : linalg} {LA : linalg_ok la}.

Definition err (A : R) : R := 10 * A / 2251799813685248.
Definition kk (A D : R) : R := err A / D + 40 * ulp1.
Lemma kk_ok A D : 1 <= A <= 200000 -> 1/1000 <= D <= 1000 ->
  0 < kk A D <= 1/1048576 /\ 40 * ulp1 <= kk A D /\ err A <= kk A D * D /\ kk A D * (D * (D * D)) <= 10/2251799813685248 * ((A + D) * D ^ 2).
Proof.
  intros HA HD. unfold kk, err, ulp1.
  assert (Q : 0 < 10 * A / 2251799813685248 / D <= 10 * 200000 / 2251799813685248 * 1000).
  { split; [apply Rdiv_lt_0_compat; lra|]. unfold Rdiv at 1. apply Rmult_le_compat; try lra.
    - apply Rlt_le, Rinv_0_lt_compat; lra.
    - replace 1000 with (/ (1/1000)) by field. apply Rinv_le_contravar; lra. }
  assert (E : 10 * A / 2251799813685248 / D * D = 10 * A / 2251799813685248) by (field; lra).
  split; [lra|]. split; [lra|]. split; [rewrite Rmult_plus_distr_r, E; lra|].
  replace ((10 * A / 2251799813685248 / D + 40 * / 9007199254740992) * (D * (D * D))) with ((10 * A / 2251799813685248) * (D * D) + 40 * / 9007199254740992 * (D * (D * D))) by (field; lra).
  replace ((A + D) * D ^ 2) with (A * (D * D) + D * (D * D)) by ring. assert (0 <= D * (D * D)) by nra. assert (0 <= A * (D * D)) by nra. lra.
Qed.

Lemma pvol_vol3 a b c d : pvol [a; b; c; d] = vol3 (pp a) (pp b) (pp c) (pp d).
Proof.
  assert (K : forall p0 p1 p2 p3, length p0 = 3%nat -> length p1 = 3%nat -> length p2 = 3%nat -> length p3 = 3%nat ->
     Geometry.tetvol [p0;p1;p2;p3] = Rabs (triple3 (sub3 (tri3 p1) (tri3 p0)) (sub3 (tri3 p2) (tri3 p0)) (sub3 (tri3 p3) (tri3 p0))) / 6).
  { intros p0 p1 p2 p3 K0 K1 K2 K3. d3 p0 K0. d3 p1 K1. d3 p2 K2. d3 p3 K3. unfold Geometry.tetvol, Spec.Geometry.det3. cbn. unfold dot; cbn. f_equal. f_equal. ring. }
  unfold pvol. cbn [map]. rewrite K by reflexivity. rewrite <- !pp_tri3. reflexivity.
Qed.

Lemma inside_B A D v t : tame A D (v :: t) -> length t = 4%nat -> plump A D t ->
  (hull (map pp t) (pp v) -> inside_outside_tetrahedron_tau Bnum v t = Ok true) /\
  (forall ws w, bary ws (map pp t) (pp v) -> In w ws -> w <= - (1/1000000) -> inside_outside_tetrahedron_tau Bnum v t = Ok false).
Proof.
  intros (HA & HD & _ & C & Sp) L Pl. destruct t as [|a [|b [|c [|d [|]]]]]; try discriminate L. clear L.
  destruct (kk_ok A D HA HD) as (K1 & K2 & K3 & K4). unfold plump in Pl. rewrite pvol_vol3 in Pl.
  inversion C as [|? ? Cv Ct]; subst. destruct (internal_B A v ltac:(lra) Cv) as (x & Ex & Px). destruct (internals_B A [a; b; c; d] ltac:(lra) Ct) as (xs & Exs & Pxs).
  unfold inside_outside_tetrahedron_tau. rewrite Ex, Exs. cbn [bind]. cbn [map] in Pxs.
  inversion Pxs as [|x1 ? xs1 ? P1 R1]; subst. inversion R1 as [|x2 ? xs2 ? P2 R2]; subst. inversion R2 as [|x3 ? xs3 ? P3 R3]; subst. inversion R3 as [|x4 ? xs4 ? P4 R4]; subst. inversion R4; subst.
  unfold inside_outside_tetrahedron. cbn [get nth_error bind]. fold (err A) in *.
  assert (V : 0 < vol3 (pp a) (pp b) (pp c) (pp d)).
  { assert (0 < (A + D) * D ^ 2) by (apply Rmult_lt_0_compat; [lra|apply pow_lt; lra]). lra. }
  assert (Sp' : spread D [pp a; pp b; pp c; pp d; pp v]).
  { intros p q Ip Iq. apply Sp; [clear - Ip|clear - Iq]; cbn [map In] in *; tauto. }
  destruct (in_tet_B (kk A D) D (err A) K1 K2 K3 HD x1 x2 x3 x4 x _ _ _ _ _ P1 P2 P3 P4 Px Sp') as [T Fl]; [lra|].
  assert (NF : ~ flat4 (pp a) (pp b) (pp c) (pp d)).
  { intros Z. unfold vol3 in V. rewrite Z, Rabs_R0 in V. lra. }
  assert (X : forall ws, bary ws [pp a; pp b; pp c; pp d] (pp v) ->
    vol3 (pp a) (pp b) (pp c) (pp d) - vol3 (pp v) (pp b) (pp c) (pp d) - vol3 (pp a) (pp v) (pp c) (pp d) - vol3 (pp a) (pp b) (pp v) (pp d) - vol3 (pp a) (pp b) (pp c) (pp v)
      = - (vol3 (pp a) (pp b) (pp c) (pp d) * (Rsum (map Rabs ws) - 1)) /\ 1 <= Rsum (map Rabs ws)).
  { intros ws B. destruct (bary_vols _ _ _ _ _ _ B) as (-> & -> & -> & ->). destruct (bary4 _ _ _ _ _ _ B) as (w0 & w1 & w2 & w3 & -> & _). cbn [nth map Rsum].
    split; [ring|]. destruct B as (_ & S & _). cbn [Rsum] in S. pose proof (Rabs_sum4 _ _ _ _ S). lra. }
  split.
  - intros (ws & B & Pw). f_equal. apply T. destruct (X ws B) as [-> _].
    replace (Rsum (map Rabs ws)) with 1; [rewrite Rminus_diag_eq, Rmult_0_r, Ropp_0, Rabs_R0 by reflexivity; lra|].
    destruct B as (_ & <- & _). clear - Pw. induction Pw as [|w ws H _ IH]; [reflexivity|]. cbn [map Rsum]. rewrite <- IH, Rabs_pos_eq by exact H. reflexivity.
  - intros ws w B Iw Hw. f_equal. apply Fl. destruct (X ws B) as [-> Ge]. rewrite Rabs_Ropp, Rabs_mult, Rabs_right by lra. rewrite Rabs_right by lra.
    rewrite Rmult_comm. apply Rmult_le_compat_l; [lra|].
    destruct (bary4 _ _ _ _ _ _ B) as (w0 & w1 & w2 & w3 & -> & _). destruct B as (_ & S & _). cbn [map Rsum] in *.
    pose proof (Rle_abs w0) as A0. pose proof (Rle_abs w1) as A1. pose proof (Rle_abs w2) as A2. pose proof (Rle_abs w3) as A3.
    destruct Iw as [->|[->|[->|[->|[]]]]]; assert (Rabs w = - w) by (apply Rabs_left1; lra); lra.
Qed.

Lemma incline_K a b c d e : dot3 (cross3 (sub3 (pp b) (pp a)) (sub3 (pp e) (pp c))) (sub3 (pp d) (pp c)) = - incline a b c d e.
Proof. unfold incline. generalize (pp a) (pp b) (pp c) (pp d) (pp e). clear. intros [[? ?] ?] [[? ?] ?] [[? ?] ?] [[? ?] ?] [[? ?] ?]. cbn. ring. Qed.

Lemma crossing_B A D a b c d e : tame A D [a; b; c; d; e] ->
  let test := check_intersection_segment_surface_numerical_6d_tau Bnum [a; b] [c; d; e] in
  (incline a b c d e = 0 -> test = Ok false) /\
  ((A + D) * D ^ 2 <= 200000 * Rabs (incline a b c d e) -> forall u v t,
    add3 (pp a) (scale3 t (sub3 (pp b) (pp a))) = add3 (pp c) (add3 (scale3 u (sub3 (pp d) (pp c))) (scale3 v (sub3 (pp e) (pp c)))) ->
    (test = Ok true -> - (2/1000000) <= u /\ - (2/1000000) <= v /\ u + v <= 1 + 2/1000000 /\ - (2/1000000) <= t <= 1 + 2/1000000) /\
    (12/10000000 <= Rabs (incline a b c d e) -> 0 <= u -> 0 <= v -> u + v <= 1 -> 0 <= t <= 1 -> test = Ok true)).
Proof.
  intros (HA & HD & HM & C & Sp) test. destruct (kk_ok A D HA HD) as (K1 & K2 & K3 & K4).
  assert (C1 : Forall (coefs A) [a; b]) by (rewrite Forall_forall in C |- *; intros w Iw; apply C; cbn [In] in *; tauto).
  assert (C2 : Forall (coefs A) [c; d; e]) by (rewrite Forall_forall in C |- *; intros w Iw; apply C; cbn [In] in *; tauto).
  destruct (internals_B A _ ltac:(lra) C1) as (xs & Exs & Pxs). destruct (internals_B A _ ltac:(lra) C2) as (ys & Eys & Pys).
  unfold test, check_intersection_segment_surface_numerical_6d_tau. rewrite Exs, Eys. cbn [bind]. cbn [map] in Pxs, Pys. fold (err A) in *.
  inversion Pxs as [|x1 ? xs1 ? P1 R1]; subst. inversion R1 as [|x2 ? xs2 ? P2 R2]; subst. inversion R2; subst.
  inversion Pys as [|y1 ? ys1 ? Q1 S1]; subst. inversion S1 as [|y2 ? ys2 ? Q2 S2]; subst. inversion S2 as [|y3 ? ys3 ? Q3 S3]; subst. inversion S3; subst.
  unfold check_intersection_segment_surface_numerical. cbn [get nth_error bind].
  destruct (seg_tri_B (kk A D) D (err A) K1 K2 K3 HD x1 x2 y1 y2 y3 _ _ _ _ _ P1 P2 Q1 Q2 Q3 Sp) as [Fl Tr].
  rewrite incline_K, Rabs_Ropp in Fl, Tr. split.
  - intros Z. f_equal. apply Fl. rewrite Z, Rabs_R0. lra.
  - intros Cd u v t Sol. pose proof (Rabs_pos (incline a b c d e)). assert (Cd' : 870000000 * (kk A D * (D * (D * D))) <= Rabs (incline a b c d e)) by lra. destruct (Tr Cd' u v t Sol) as [T1 T2]. split.
    + intros H0. apply T1. congruence.
    + intros. f_equal. apply T2; assumption.
Qed.
End Lib.
