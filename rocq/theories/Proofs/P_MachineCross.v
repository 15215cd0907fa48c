(** Crossing points computed in int64. *)
From Coq Require Import Reals List ZArith.
From Verif Require Import Base.Res Model.Tau Model.Arr Model.Num Model.IcoNumeric Model.IcoIntersect Model.DodeIntersect Model.MachineCross
  Spec.Value Spec.RVec Spec.Shape Spec.Geometry Spec.IcoSpec Spec.DodeSpec Spec.Space Spec.Plane Spec.Grid.
Import ListNotations.
Local Open Scope Z_scope.

From Coq Require Import Lia Lra.
From Verif Require Import Proofs.ResLemmas Proofs.Irrational Proofs.ScalarLemmas Proofs.GridRing Proofs.GridCross Proofs.P_Intersect Proofs.P_DodeIntersect.

(** Coordinates (a + b tau)/q with |a| + 2|b| <= K: the crossing point of a segment and a
    triangle comes out as in exact arithmetic, including when nothing or an exception does. *)
Lemma L_C103_same : forall (N : num) (q K : Z) (seg sur : vecs), 1 <= K -> K * K * q <= 437 -> K^7 * q <= 16758000 ->
  length seg = 2%nat -> length sur = 3%nat -> ring_points tau_ring 6 q K seg -> ring_points tau_ring 6 q K sur ->
  m_intersection_segment_surface N seg sur = intersection_segment_surface N seg sur.
Proof. intros N q K seg sur HK H1 H2 L1 L2 G1 G2. exact (segment_surface_eq N q K seg sur L1 L2 G1 G2 HK H1 H2). Qed.

Lemma ring_goods (ring : Z -> Z -> tau -> Prop) q K vs : (forall x, ring q K x -> wf x) -> ring_points ring 6 q K vs -> goods 6 vs.
Proof. intros W G. eapply Forall_impl; [|exact G]. intros v [L F]. split; [|exact L]. eapply Forall_impl; [|exact F]. exact W. Qed.

(** So when the float64 test reports a hit and segment and plane are not parallel, the machine
    returns the point of the segment's line in the plane of the triangle, exactly. *)
Lemma L_C103_point : forall (N : num) (q K : Z) A B C D E (u v t : R), 1 <= K -> K * K * q <= 437 -> K^7 * q <= 16758000 -> ring_points tau_ring 6 q K [A; B; C; D; E] ->
  check_intersection_segment_surface_numerical_6d_tau N [A; B] [C; D; E] = Ok true ->
  triple3 (sub3 (pp B) (pp A)) (sub3 (pp D) (pp C)) (sub3 (pp E) (pp C)) <> 0%R ->
  add3 (pp A) (scale3 t (sub3 (pp B) (pp A))) = add3 (pp C) (add3 (scale3 u (sub3 (pp D) (pp C))) (scale3 v (sub3 (pp E) (pp C)))) ->
  exists p, m_intersection_segment_surface N [A; B] [C; D; E] = Ok (Some p) /\ cgood 6 p /\
    vals TAU p = vadd (vals TAU A) (vscale t (vsub (vals TAU B) (vals TAU A))) /\
    pp p = add3 (pp A) (scale3 t (sub3 (pp B) (pp A))).
Proof.
  intros N q K A B C D E u v t HK H1 H2 G Hc Hd Hs. assert (Gg : goods 6 [A; B; C; D; E]) by (eapply ring_goods; [|exact G]; intros x Gx; apply (ro_pos _ _ _ _ _ _ _ _ tau_ring_ok _ _ _ Gx)).
  inversion G as [|? ? GA G1]; subst. inversion G1 as [|? ? GB G2]; subst. assert (G0 : ring_points tau_ring 6 q K [A; B]) by (repeat (apply Forall_cons; [assumption|]); apply Forall_nil).
  rewrite (L_C103_same N q K) by (assumption || reflexivity).
  exact (L_C32_point N A B C D E u v t Gg Hc Hd Hs).
Qed.

Lemma bind_in {A C} (m : res A) (k k' : A -> res C) : (forall a, m = Ok a -> k a = k' a) -> bind m k = bind m k'.
Proof. intros H. destruct m; [apply H; reflexivity|reflexivity]. Qed.
Lemma ring_get ring n q K (t : vecs) i v : ring_points ring n q K t -> get t i = Ok v -> length v = n /\ Forall (ring q K) v.
Proof. intros G E. unfold get in E. destruct (nth_error t i) as [x|] eqn:N; [|discriminate]. injection E as ->. unfold ring_points in G. rewrite Forall_forall in G. apply G. eapply nth_error_In, N. Qed.
Lemma ring_pick2 ring n q K t e s : ring_points ring n q K t -> pick2 t e = Ok s -> length s = 2%nat /\ ring_points ring n q K s.
Proof.
  intros G. destruct e as [i j]. unfold pick2. destruct (get t i) as [a|] eqn:Ea; [|discriminate]. destruct (get t j) as [b|] eqn:Eb; [|discriminate]. intros E. injection E as <-. split; [reflexivity|].
  apply Forall_cons; [exact (ring_get _ _ _ _ _ _ _ G Ea)|]. apply Forall_cons; [exact (ring_get _ _ _ _ _ _ _ G Eb)|apply Forall_nil].
Qed.
Lemma ring_pick3 ring n q K t e s : ring_points ring n q K t -> pick3 t e = Ok s -> length s = 3%nat /\ ring_points ring n q K s.
Proof.
  intros G. destruct e as [[i j] k]. unfold pick3. destruct (get t i) as [a|] eqn:Ea; [|discriminate]. destruct (get t j) as [b|] eqn:Eb; [|discriminate]. destruct (get t k) as [c|] eqn:Ec; [|discriminate]. intros E. injection E as <-. split; [reflexivity|].
  apply Forall_cons; [exact (ring_get _ _ _ _ _ _ _ G Ea)|]. apply Forall_cons; [exact (ring_get _ _ _ _ _ _ _ G Eb)|]. apply Forall_cons; [exact (ring_get _ _ _ _ _ _ _ G Ec)|apply Forall_nil].
Qed.

(** The points of which the intersection of two tetrahedra is made are those of exact
    arithmetic. *)
Lemma L_C103_corners : forall (N : num) (q K : Z) (t1 t2 : vecs), 1 <= K -> K * K * q <= 437 -> K^7 * q <= 16758000 ->
  ring_points tau_ring 6 q K t1 -> ring_points tau_ring 6 q K t2 -> m_collect N t1 t2 = collect N t1 t2.
Proof.
  intros N q K t1 t2 HK H1 H2 G1 G2.
  assert (Pt : forall u v c, ring_points tau_ring 6 q K u -> ring_points tau_ring 6 q K v -> m_edge_point N u v c = edge_point N u v c).
  { intros u v c Gu Gv. unfold m_edge_point, edge_point. apply bind_in. intros s Es. apply bind_in. intros f Ef.
    destruct (ring_pick2 _ _ _ _ _ _ _ Gu Es) as [L1 P1], (ring_pick3 _ _ _ _ _ _ _ Gv Ef) as [L2 P2]. apply (L_C103_same N q K); assumption. }
  assert (Ps : forall cs, m_edge_points N t1 t2 cs = edge_points N t1 t2 cs).
  { induction cs as [|c cs IH]; [reflexivity|]. cbn [m_edge_points edge_points]. rewrite (Pt t1 t2 c G1 G2), (Pt t2 t1 c G2 G1), IH. reflexivity. }
  unfold m_collect, collect. rewrite Ps. reflexivity.
Qed.

(** The same for two segments of dode2, for coordinates (a + b sqrt 3)/q. *)
Lemma L_C104_same : forall (N : num) (q K : Z) (s1 s2 : vecs), 1 <= K -> K * K * q <= 11 ->
  length s1 = 2%nat -> length s2 = 2%nat -> ring_points sqrt3_ring 6 q K s1 -> ring_points sqrt3_ring 6 q K s2 ->
  md_intersection_two_segment N s1 s2 = dintersection_two_segment N s1 s2.
Proof. intros N q K s1 s2 HK H L1 L2 G1 G2. exact (two_segment_eq N q K s1 s2 L1 L2 G1 G2 HK H). Qed.

Lemma L_C104_point : forall (N : num) (q K : Z) A B C D (t u : R), 1 <= K -> K * K * q <= 11 -> ring_points sqrt3_ring 6 q K [A; B; C; D] ->
  dcheck_intersection_two_segment_numerical_6d_tau N [A; B] [C; D] = Ok true ->
  cross3 (sub3 (dp B) (dp A)) (sub3 (dp D) (dp C)) <> o3 ->
  add3 (dp A) (scale3 t (sub3 (dp B) (dp A))) = add3 (dp C) (scale3 u (sub3 (dp D) (dp C))) ->
  exists p, md_intersection_two_segment N [A; B] [C; D] = Ok (Some p) /\ cgood 6 p /\
    vals SIN p = vadd (vals SIN A) (vscale t (vsub (vals SIN B) (vals SIN A))) /\
    dp p = add3 (dp A) (scale3 t (sub3 (dp B) (dp A))).
Proof.
  intros N q K A B C D t u HK H G Hc Hd Hs. assert (Gg : goods 6 [A; B; C; D]) by (eapply ring_goods; [|exact G]; intros x Gx; apply (ro_pos _ _ _ _ _ _ _ _ sqrt3_ring_ok _ _ _ Gx)).
  inversion G as [|? ? GA G1]; subst. inversion G1 as [|? ? GB G2]; subst. assert (G0 : ring_points sqrt3_ring 6 q K [A; B]) by (repeat (apply Forall_cons; [assumption|]); apply Forall_nil).
  rewrite (L_C104_same N q K) by (assumption || reflexivity).
  exact (L_C71_point N A B C D t u Gg Hc Hd Hs).
Qed.

Lemma L_C104_corners : forall (N : num) (q K : Z) (t1 t2 : vecs), 1 <= K -> K * K * q <= 11 ->
  ring_points sqrt3_ring 6 q K t1 -> ring_points sqrt3_ring 6 q K t2 -> md_collect N t1 t2 = dcollect N t1 t2.
Proof.
  intros N q K t1 t2 HK H G1 G2.
  assert (Ed : forall s f cs, length s = 2%nat -> ring_points sqrt3_ring 6 q K s -> ring_points sqrt3_ring 6 q K f -> md_segment_edges N s f cs = segment_edges N s f cs).
  { intros s f cs Ls Gs Gf. induction cs as [|c cs IH]; [reflexivity|]. cbn [md_segment_edges segment_edges]. apply bind_in. intros e Ee.
    destruct (ring_pick2 _ _ _ _ _ _ _ Gf Ee) as [Le Ge]. rewrite IH, (L_C104_same N q K) by assumption. reflexivity. }
  assert (Pt : forall u v c, ring_points sqrt3_ring 6 q K u -> ring_points sqrt3_ring 6 q K v -> md_edge_points N u v c = dedge_points N u v c).
  { intros u v c Gu Gv. unfold md_edge_points, dedge_points. apply bind_in. intros s Es. apply bind_in. intros f Ef.
    destruct (ring_pick2 _ _ _ _ _ _ _ Gu Es) as [L1 P1], (ring_pick3 _ _ _ _ _ _ _ Gv Ef) as [L2 P2]. unfold md_intersection_segment_surface, dintersection_segment_surface. rewrite Ed by assumption. reflexivity. }
  assert (Ps : forall cs, md_edge_hits N t1 t2 cs = dedge_hits N t1 t2 cs).
  { induction cs as [|c cs IH]; [reflexivity|]. cbn [md_edge_hits dedge_hits]. rewrite (Pt t1 t2 c G1 G2), (Pt t2 t1 c G2 G1), IH. reflexivity. }
  unfold md_collect, dcollect. rewrite Ps. reflexivity.
Qed.

Ltac rngs := repeat (apply Forall_cons; [split; [reflexivity|repeat (apply Forall_cons; [split; [lia|]|]); try apply Forall_nil]|]); try apply Forall_nil.
Ltac tring q := first [exists q; cbn; lia|exists (q / 2); cbn; lia].
Ltac sring := first [exists 2, 0; cbn; lia|exists 2, 1; cbn; lia|exists 2, (-1); cbn; lia|exists 1, 0; cbn; lia].
Ltac bnum := match goal with |- _ = ?r => vm_cast_no_check (eq_refl r) end.

(** A segment and a triangle with coordinates in halves of a + b tau, |a| + 2|b| <= 8. *)
Example E_C103_ex :
  let seg := [[t0; t0; t0; t0; T (-1) 2 2; T 3 1 2]; [t0; t0; t0; T 0 1 1; t0; t0]] in
  let sur := [[T 0 (-1) 1; T 3 (-2) 2; t0; T (-1) 0 1; T 2 1 2; t0]; [T 0 1 1; T (-1) 1 1; t0; T (-3) (-1) 2; t0; t0]; [T (-3) 0 2; T (-1) (-2) 2; t0; T 3 1 2; t0; T 1 1 2]] in
  8 * 8 * 2 <= 437 /\ 8^7 * 2 <= 16758000 /\ ring_points tau_ring 6 2 8 (seg ++ sur) /\
  check_intersection_segment_surface_numerical_6d_tau Bnum seg sur = Ok true /\
  m_intersection_segment_surface Bnum seg sur = Ok (Some [t0; t0; t0; T (-6481) 5464 13151; T 11756 8893 26302; T 10099 27130 26302]).
Proof.
  intros seg sur. split; [lia|]. split; [lia|]. split; [|split; bnum].
  unfold seg, sur. cbn [app]. rngs; tring 2.
Qed.

(** Two segments with coordinates 0, 1/2, 1 and sqrt 3/2. *)
Example E_C104_ex :
  let s1 := [[t0; T 0 (-1) 1; T 0 1 1; t0; T 0 1 1; t0]; [T (-1) 0 2; T 1 0 2; T (-1) 0 1; T 1 0 1; T 0 (-1) 1; t0]] in
  let s2 := [[T (-1) 0 1; T 0 1 1; T (-1) 0 2; T 1 0 1; T (-1) 0 1; t0]; [T 0 1 1; T 0 (-1) 1; t0; T 1 0 1; T (-1) 0 2; t0]] in
  2 * 2 * 2 <= 11 /\ ring_points sqrt3_ring 6 2 2 (s1 ++ s2) /\
  dcheck_intersection_two_segment_numerical_6d_tau Bnum s1 s2 = Ok true /\
  md_intersection_two_segment Bnum s1 s2 = Ok (Some [T (-2) 1 3; T 1 0 6; T (-5) 2 6; T 4 (-2) 3; T 3 (-5) 3; t0]).
Proof.
  intros s1 s2. split; [lia|]. split; [|split; bnum].
  unfold s1, s2. cbn [app]. rngs; sring.
Qed.

(** Beyond the bounds the point is silently wrong: integer coordinates up to 100 are enough
    for a wrong digit ... *)
Lemma L_C103_integer_refuted : exists seg sur p p', length seg = 2%nat /\ length sur = 3%nat /\ ring_points tau_ring 6 1 100 (seg ++ sur) /\
  Forall (Forall (fun x => tb x = 0)) (seg ++ sur) /\
  intersection_segment_surface Bnum seg sur = Ok (Some p) /\ m_intersection_segment_surface Bnum seg sur = Ok (Some p') /\ p <> p'.
Proof.
  set (i6 := fun a b c d e f => [T a 0 1; T b 0 1; T c 0 1; T d 0 1; T e 0 1; T f 0 1]).
  exists [i6 (-60) (-95) (-35) (-78) (-43) (-85); i6 36 69 36 92 61 (-15)], [i6 77 42 (-83) 2 39 (-27); i6 (-55) 17 57 48 89 (-23); i6 (-94) 95 31 (-61) (-69) 67].
  eexists. eexists. split; [reflexivity|]. split; [reflexivity|]. split; [unfold i6; cbn [app]; rngs; tring 1|]. split; [unfold i6; cbn [app]; repeat (apply Forall_cons; [repeat (apply Forall_cons; [reflexivity|]); apply Forall_nil|]); apply Forall_nil|].
  split; [vm_compute; reflexivity|]. split; [vm_compute; reflexivity|]. discriminate.
Qed.

(** ... and with coefficients up to 200 it is off by more than 200. *)
Lemma L_C103_large_refuted : exists seg sur p p', length seg = 2%nat /\ length sur = 3%nat /\ ring_points tau_ring 6 1 600 (seg ++ sur) /\
  intersection_segment_surface Bnum seg sur = Ok (Some p) /\ m_intersection_segment_surface Bnum seg sur = Ok (Some p') /\
  (200 <= Rabs (val TAU (hd t0 p') - val TAU (hd t0 p)))%R.
Proof.
  exists [[T 171 126 1; T 132 (-153) 1; T 102 (-133) 1; T 17 (-81) 1; T 59 57 1; T 5 130 1]; [T (-91) (-146) 1; T (-109) 181 1; T 15 (-126) 1; T (-144) (-180) 1; T 137 23 1; T (-118) 195 1]],
    [[T (-164) (-21) 1; T 11 (-117) 1; T (-80) (-16) 1; T (-109) 143 1; T 109 54 1; T 44 119 1]; [T 149 169 1; T (-87) (-25) 1; T (-42) 187 1; T (-162) (-24) 1; T 90 (-61) 1; T 69 (-126) 1]; [T 147 64 1; T 140 (-116) 1; T (-190) (-191) 1; T 50 (-122) 1; T 156 (-74) 1; T (-104) (-178) 1]].
  eexists. eexists. split; [reflexivity|]. split; [reflexivity|]. split; [cbn [app]; rngs; tring 1|].
  split; [vm_compute; reflexivity|]. split; [vm_compute; reflexivity|]. cbn [hd]. unfold val. cbn [ta tb tc]. pose proof TAU_bounds. eapply Rle_trans; [|apply Rle_abs]. lra.
Qed.

(** In dode2 coefficients up to 15 are enough for a point that is off by more than 1/2. *)
Lemma L_C104_small_refuted : exists s1 s2 p p', length s1 = 2%nat /\ length s2 = 2%nat /\ Forall (Forall (fun x => tc x = 1 /\ Z.abs (ta x) <= 15 /\ Z.abs (tb x) <= 15)) (s1 ++ s2) /\
  dintersection_two_segment Bnum s1 s2 = Ok (Some p) /\ md_intersection_two_segment Bnum s1 s2 = Ok (Some p') /\
  (1/2 <= Rabs (val SIN (hd t0 p') - val SIN (hd t0 p)))%R.
Proof.
  exists [[T (-15) 14 1; T (-12) (-3) 1; T 0 (-15) 1; T 13 1 1; T 4 (-3) 1; t0]; [T (-3) (-3) 1; T 14 (-3) 1; T 13 15 1; T (-8) (-1) 1; T 12 (-3) 1; t0]],
    [[T 4 10 1; T 12 (-10) 1; T 12 (-6) 1; T (-11) 5 1; T 15 14 1; t0]; [T 12 (-11) 1; T 10 13 1; T (-14) 10 1; T 5 5 1; T 8 (-12) 1; t0]].
  eexists. eexists. split; [reflexivity|]. split; [reflexivity|]. split; [cbn [app]; repeat (apply Forall_cons; [repeat (apply Forall_cons; [cbn; lia|]); apply Forall_nil|]); apply Forall_nil|].
  split; [vm_compute; reflexivity|]. split; [vm_compute; reflexivity|]. cbn [hd]. unfold val. cbn [ta tb tc]. pose proof SIN_bounds. eapply Rle_trans; [|rewrite <- Rabs_Ropp; apply Rle_abs]. lra.
Qed.

(** Integer coordinates up to 27 are enough for a wrong point. *)
Lemma L_C104_integer_refuted : exists s1 s2 p p', length s1 = 2%nat /\ length s2 = 2%nat /\ ring_points sqrt3_ring 6 1 27 (s1 ++ s2) /\
  Forall (Forall (fun x => tb x = 0)) (s1 ++ s2) /\
  dintersection_two_segment Bnum s1 s2 = Ok (Some p) /\ md_intersection_two_segment Bnum s1 s2 = Ok (Some p') /\ p <> p'.
Proof.
  set (i6 := fun a b c d e f => [T a 0 1; T b 0 1; T c 0 1; T d 0 1; T e 0 1; T f 0 1]).
  exists [i6 20 (-27) (-23) 13 (-20) 0; i6 (-27) 11 25 26 (-9) 0], [i6 (-20) (-2) (-27) 26 7 0; i6 17 10 21 (-20) 22 0].
  eexists. eexists. split; [reflexivity|]. split; [reflexivity|]. split; [unfold i6; cbn [app]; rngs; exists 1, 0; cbn; lia|]. split; [unfold i6; cbn [app]; repeat (apply Forall_cons; [repeat (apply Forall_cons; [reflexivity|]); apply Forall_nil|]); apply Forall_nil|].
  split; [vm_compute; reflexivity|]. split; [vm_compute; reflexivity|]. discriminate.
Qed.
