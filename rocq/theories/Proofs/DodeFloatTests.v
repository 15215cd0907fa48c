(** The two geometric tests of dode2/numericalc.py in binary64. *)
From Coq Require Import Reals List ZArith Bool Lia Lra Psatz.
From Flocq Require Import Core IEEE754.BinarySingleNaN IEEE754.Binary IEEE754.Bits.
From Verif Require Import Base.Res Model.Tau Model.Arr Model.Num Model.IcoNumeric Model.DodeNumeric Model.DodeMath1 Model.DodeIntersect Spec.LinAlg Spec.Value Spec.RVec Spec.Shape Spec.DodeSpec Spec.Sets Spec.Space Spec.Tetra Spec.Overlap Spec.Plane Spec.Float Spec.PlaneFloat
  Proofs.ResLemmas Proofs.RVecLemmas Proofs.Irrational Proofs.NumLemmas Proofs.RoundLemmas Proofs.FloatCalc Proofs.FloatGeom Proofs.IntersectLemmas Proofs.Polytope Proofs.OverlapLemmas Proofs.PlaneLemmas Proofs.DodeProj Proofs.Polygon Proofs.DodeIntersectLemmas Proofs.DodeOverlapLemmas Proofs.FloatTests Proofs.P_Numeric Proofs.DodeFloat Proofs.DodeFloatGeom.
Import ListNotations.
Local Open Scope R_scope.
Local Notation Bnum := Bmath.

Section Lib.
Context {la : linalg} {LA : linalg_ok la}.

Lemma kk_2 A D : 1 <= A <= 200000 -> 1/1000 <= D <= 1000 -> kk A D * (D * D) <= 10/2251799813685248 * ((A + D) * D).
Proof.
  intros HA HD. unfold kk, err, ulp1. replace ((10 * A / 2251799813685248 / D + 40 * / 9007199254740992) * (D * D)) with (10/2251799813685248 * (A * D) + 40 * / 9007199254740992 * (D * D)) by (field; lra).
  replace ((A + D) * D) with (A * D + D * D) by ring. assert (0 <= D * D) by nra. lra.
Qed.
Lemma kk_4 A D : 1 <= A <= 200000 -> 1/1000 <= D <= 1000 -> kk A D * (D * D * (D * D)) <= 10/2251799813685248 * ((A + D) * D ^ 3).
Proof.
  intros HA HD. pose proof (kk_2 A D HA HD) as K. assert (0 <= D * D) by nra.
  replace (kk A D * (D * D * (D * D))) with (kk A D * (D * D) * (D * D)) by ring. replace (10/2251799813685248 * ((A + D) * D ^ 3)) with (10/2251799813685248 * ((A + D) * D) * (D * D)) by ring.
  apply Rmult_le_compat_r; assumption.
Qed.
Lemma parea_tri h a b c : height (dp a) = h -> height (dp b) = h -> height (dp c) = h -> parea [a; b; c] = tri_area (dp a) (dp b) (dp c).
Proof.
  intros Ha Hb Hc. rewrite (tri_area_flat h) by assumption. unfold parea. cbn [map].
  destruct (dp_coords a) as (x & y & z & _ & Ea & Da), (dp_coords b) as (x' & y' & z' & _ & Eb & Db), (dp_coords c) as (x'' & y'' & z'' & _ & Ec & Dc).
  rewrite Ea, Eb, Ec, Da, Db, Dc. unfold triarea. cbn. try (f_equal; f_equal; ring). 
Qed.

Lemma inside2_B A D h v t : tame2 A D h (v :: t) -> length t = 3%nat -> plump2 A D t ->
  (hull (map dp t) (dp v) -> inside_outside_triangle_tau Bnum v t = Ok true) /\
  (forall ws w, bary ws (map dp t) (dp v) -> In w ws -> w <= - (1/1000000) -> inside_outside_triangle_tau Bnum v t = Ok false).
Proof.
  intros (HA & HD & _ & C & Sp & Lv) L Pl. destruct t as [|a [|b [|c [|]]]]; try discriminate L. clear L.
  assert (HD' : 1/1000 <= D <= 1000) by lra. destruct (kk_ok A D HA HD') as (K1 & K2 & K3 & _). pose proof (kk_2 A D HA HD') as K4. unfold plump2 in Pl.
  assert (Hh : forall w, In w [v; a; b; c] -> height (dp w) = h) by (unfold level in Lv; rewrite Forall_forall in Lv; exact Lv). cbn [In] in Hh.
  inversion C as [|? ? Cv Ct]; subst. destruct (dinternal_B A v ltac:(lra) Cv) as (x & Ex & Px). destruct (dinternals_B A [a; b; c] ltac:(lra) Ct) as (xs & Exs & Pxs).
  unfold inside_outside_triangle_tau. rewrite Ex, Exs. cbn [bind]. cbn [map] in Pxs.
  inversion Pxs as [|x1 ? xs1 ? P1 R1]; subst. inversion R1 as [|x2 ? xs2 ? P2 R2]; subst. inversion R2 as [|x3 ? xs3 ? P3 R3]; subst. inversion R3; subst.
  unfold inside_outside_triangle. cbn [get nth_error bind]. fold (err A) in *.
  assert (Hv := Hh v ltac:(tauto)). assert (Ha := Hh a ltac:(tauto)). assert (Hb := Hh b ltac:(tauto)). assert (Hc := Hh c ltac:(tauto)). clear Hh Lv.
  rewrite (parea_tri h a b c) in Pl by assumption.
  assert (V : 0 < tri_area (dp a) (dp b) (dp c)) by (assert (0 < (A + D) * D) by (apply Rmult_lt_0_compat; lra); lra).
  assert (Sp' : spread D [dp a; dp b; dp c; dp v]) by (intros p q Ip Iq; apply Sp; [clear - Ip|clear - Iq]; cbn [map In] in *; tauto).
  destruct (in_tri_B (kk A D) D (err A) K1 K2 K3 HD' x1 x2 x3 x _ _ _ _ P1 P2 P3 Px Sp') as [T Fl]; [lra|].
  assert (NF : ~ flat3 (dp a) (dp b) (dp c)).
  { intros Z. rewrite (tri_area_flat h) in V by assumption. unfold flat3 in Z. rewrite Z, Rabs_R0 in V. lra. }
  assert (X : forall w0 w1 w2, bary [w0; w1; w2] [dp a; dp b; dp c] (dp v) ->
    tri_area (dp a) (dp b) (dp c) - tri_area (dp v) (dp b) (dp c) - tri_area (dp a) (dp v) (dp c) - tri_area (dp a) (dp b) (dp v)
      = - (tri_area (dp a) (dp b) (dp c) * (Rabs w0 + Rabs w1 + Rabs w2 - 1))).
  { intros w0 w1 w2 B. destruct (bary3_dets _ _ _ _ _ _ _ B) as (B0 & B1 & B2). rewrite !(tri_area_flat h) by assumption. rewrite <- B0, <- B1, <- B2, !Rabs_mult. field. }
  split.
  - intros (ws & B & Pw). f_equal. apply T. destruct (bary3 _ _ _ _ _ B) as (w0 & w1 & w2 & -> & E). rewrite (X _ _ _ B).
    rewrite Forall_forall in Pw. rewrite (Rabs_pos_eq w0), (Rabs_pos_eq w1), (Rabs_pos_eq w2) by (apply Pw; cbn; tauto). replace (w0 + w1 + w2 - 1) with 0 by lra. rewrite Rmult_0_r, Ropp_0, Rabs_R0. lra.
  - intros ws w B Iw Hw. f_equal. apply Fl. destruct (bary3 _ _ _ _ _ B) as (w0 & w1 & w2 & -> & E). rewrite (X _ _ _ B).
    assert (Ge : 16/10000000 <= Rabs w0 + Rabs w1 + Rabs w2 - 1).
    { pose proof (Rle_abs w0) as A0. pose proof (Rle_abs w1) as A1. pose proof (Rle_abs w2) as A2.
      destruct Iw as [->|[->|[->|[]]]]; assert (Rabs w = - w) by (apply Rabs_left1; lra); lra. }
    rewrite Rabs_Ropp, Rabs_mult, (Rabs_right (tri_area _ _ _)), (Rabs_right (_ - 1)) by lra. rewrite Rmult_comm. apply Rmult_le_compat_l; lra.
Qed.

Lemma turn_T h a b c d : height (dp a) = h -> height (dp b) = h -> height (dp c) = h -> height (dp d) = h ->
  dot3 (cross3 (sub3 (dp b) (dp a)) (sub3 (dp d) (dp c))) (cross3 (sub3 (dp b) (dp a)) (sub3 (dp d) (dp c))) = turn a b c d ^ 2.
Proof.
  unfold turn. destruct (dp a) as [[? ?] ?], (dp b) as [[? ?] ?], (dp c) as [[? ?] ?], (dp d) as [[? ?] ?]. unfold height. cbn. intros -> -> -> ->. ring.
Qed.
Lemma turn_swap a b c d : turn c d a b = - turn a b c d.
Proof. unfold turn. destruct (dp a) as [[? ?] ?], (dp b) as [[? ?] ?], (dp c) as [[? ?] ?], (dp d) as [[? ?] ?]. cbn. ring. Qed.

Lemma crossing2_B A D h a b c d : tame2 A D h [a; b; c; d] ->
  let test := dcheck_intersection_two_segment_numerical_6d_tau Bnum [a; b] [c; d] in
  (turn a b c d = 0 -> test = Ok false) /\
  (turn a b c d <> 0 -> (A + D) * D ^ 4 <= 50000 * (turn a b c d ^ 2 * dist3 (dp d) (dp c)) -> forall s t,
    add3 (dp a) (scale3 s (sub3 (dp b) (dp a))) = add3 (dp c) (scale3 t (sub3 (dp d) (dp c))) ->
    (test = Ok true -> - (1/1000000) <= s <= 1 + 1/1000000 /\ - (1/1000000) <= t <= 1 + 1/1000000) /\
    (12/10000000 <= turn a b c d ^ 2 -> 1/1000000 <= s <= 1 - 1/1000000 -> 1/1000000 <= t <= 1 - 1/1000000 -> test = Ok true)).
Proof.
  intros (HA & HD & HM & C & Sp & Lv) test. assert (HD' : 1/1000 <= D <= 1000) by lra. destruct (kk_ok A D HA HD') as (K1 & K2 & K3 & _). pose proof (kk_4 A D HA HD') as K4.
  assert (C1 : Forall (coefs A) [a; b]) by (rewrite Forall_forall in C |- *; intros w Iw; apply C; cbn [In] in *; tauto).
  assert (C2 : Forall (coefs A) [c; d]) by (rewrite Forall_forall in C |- *; intros w Iw; apply C; cbn [In] in *; tauto).
  assert (Hh : forall v, In v [a; b; c; d] -> height (dp v) = h) by (unfold level in Lv; rewrite Forall_forall in Lv; exact Lv). cbn [In] in Hh.
  destruct (dinternals_B A _ ltac:(lra) C1) as (xs & Exs & Pxs). destruct (dinternals_B A _ ltac:(lra) C2) as (ys & Eys & Pys).
  unfold test, dcheck_intersection_two_segment_numerical_6d_tau. rewrite Exs, Eys. cbn [bind]. cbn [map] in Pxs, Pys. fold (err A) in *.
  inversion Pxs as [|x1 ? xs1 ? P1 R1]; subst. inversion R1 as [|x2 ? xs2 ? P2 R2]; subst. inversion R2; subst.
  inversion Pys as [|y1 ? ys1 ? Q1 S1]; subst. inversion S1 as [|y2 ? ys2 ? Q2 S2]; subst. inversion S2; subst.
  unfold dcheck_intersection_two_segment_numerical. cbn [get nth_error bind].
  destruct (seg_seg_B (kk A D) D (err A) K1 K2 K3 HD' x1 x2 y1 y2 _ _ _ _ P1 P2 Q1 Q2 Sp) as [Fl Tr].
  rewrite (turn_T h) in Fl, Tr by (apply Hh; tauto). split.
  - intros Z. f_equal. apply Fl. rewrite Z. lra.
  - intros Nz Cd s t Sol. assert (Tp : 0 < turn a b c d ^ 2) by (pose proof (Rsqr_pos_lt _ Nz) as Q; unfold Rsqr in Q; replace (turn a b c d ^ 2) with (turn a b c d * turn a b c d) by ring; exact Q).
    destruct (Tr Tp) with (s := s) (t := t) as [T1 T2]; [|exact Sol|].
    + assert (Y : kk A D * (D * D * (D * D)) * D <= 10/2251799813685248 * ((A + D) * D ^ 3) * D) by (apply Rmult_le_compat_r; lra).
      replace (10/2251799813685248 * ((A + D) * D ^ 3) * D) with (10/2251799813685248 * ((A + D) * D ^ 4)) in Y by ring.
      change (norm3 (sub3 (dp d) (dp c))) with (dist3 (dp d) (dp c)).
      assert (0 <= turn a b c d ^ 2 * dist3 (dp d) (dp c)) by (apply Rmult_le_pos; [lra|apply sqrt_pos]). lra.
    + split; [intros H0; apply T1; congruence|intros; f_equal; apply T2; assumption || lra].
Qed.
End Lib.
