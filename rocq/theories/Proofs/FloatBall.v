(** The test of the bounding spheres in binary64. *)
From Coq Require Import Reals List ZArith Bool Lia Lra Psatz.
From Flocq Require Import Core IEEE754.BinarySingleNaN IEEE754.Binary IEEE754.Bits.
From Verif Require Import Base.Res Model.Tau Model.Arr Model.Num Model.Vectors Model.IcoNumeric Model.IcoMath1 Model.IcoDedup Model.IcoIntersect
  Spec.LinAlg Spec.Value Spec.RVec Spec.Shape Spec.IcoSpec Spec.Sets Spec.Space Spec.Tetra Spec.Float Spec.SpaceFloat
  Proofs.ResLemmas Proofs.RVecLemmas Proofs.DedupLemmas Proofs.NumLemmas Proofs.IntersectLemmas Proofs.CoplanarLemmas Proofs.MachineLemmas Proofs.RoundLemmas Proofs.FloatCalc Proofs.FloatGeom Proofs.DodeFloatGeom.
Import ListNotations.
Local Open Scope R_scope.
Local Notation Bnum := Bmath.

Section Lib.
Context {la : linalg} {LA : linalg_ok la}.

(** np.linalg.norm of three numbers known up to A / 2^51. *)
Lemma norm_B A x y z p : 1 <= A <= 1000000 -> bnd A p -> P (A / 2251799813685248) (x, y, z) p ->
  apx (norm_list Bnum [x; y; z]) (norm3 p) (5 * A / 2251799813685248) /\ 0 <= norm3 p <= 2 * A.
Proof.
  destruct p as [[p0 p1] p2]. intros HA Bp (X0 & X1 & X2). set (E := A / 2251799813685248) in *. assert (E0 : 0 < E <= A / 1000) by (unfold E; lra).
  assert (N0 : 0 <= norm3 (p0, p1, p2) <= 1733/1000 * A) by (split; [apply norm3_pos|]; exact (norm3_bnd A _ ltac:(lra) Bp)). split; [|lra].
  cbn [bnd] in Bp. destruct Bp as (B0 & B1 & B2). destruct X0 as [F0 H0], X1 as [F1 H1], X2 as [F2 H2].
  pose proof eta_pos as Ep. assert (Et : eta <= 1/10000000000000000000000000000000000000000000000000000000000000000000000000000) by (pose proof eta_tiny as Z; unfold ulp1 in Z; lra).
  assert (Sq : forall x p, Bfin x = true -> Rabs (Bv x - p) <= E -> Rabs p <= A -> fin_le (bpow radix2 200) x /\ 0 <= Bv x * Bv x <= 1000000000000000).
  { clear - E0 HA. clearbody E. intros x p Fx Hx Hp. assert (Bx : Rabs (Bv x) <= 2 * A). { replace (Bv x) with (p + (Bv x - p)) by ring. eapply Rle_trans; [apply Rabs_triang|]. lra. }
    split; [split; [exact Fx|pose proof p200; lra]|]. pose proof (Rabs_pos (Bv x)). replace (Bv x * Bv x) with (Rabs (Bv x) * Rabs (Bv x)) by (unfold Rabs; destruct (Rcase_abs (Bv x)); ring). nra. }
  destruct (Sq _ _ F0 H0 B0) as (La & Qa). destruct (Sq _ _ F1 H1 B1) as (Lb & Qb). destruct (Sq _ _ F2 H2 B2) as (Lc & Qc). clear Sq.
  assert (Rw : row_le (bpow radix2 200) (x, y, z)) by (split; [|split]; assumption).
  destruct (proj1 LA _ _ Rw Rw) as (Fs & HS & Rns). specialize (Rns eq_refl). cbn [val3 abs3 dot3] in HS. rewrite u53, <- !Rabs_mult, !(Rabs_pos_eq (_ * _)) in HS by lra.
  match type of HS with Rabs (Bv ?t - _) <= _ => change (norm_list Bnum [x; y; z]) with (fsqrt Bnum t); set (S := t) in * end.
  set (A' := Bv x * Bv x) in *. set (B := Bv y * Bv y) in *. set (C := Bv z * Bv z) in *.
  assert (T0 : bpow radix2 (-1000) <= 1/10000000000000000000000000000000000000000000000000000000000000000000000000000).
  { apply Rle_trans with (bpow radix2 (-260)); [apply bpow_le; lia|]. cbn. lra. }
  assert (Hq : Rabs (sqrt (Bv S) - sqrt (A' + B + C)) <= 5 * ulp1 * sqrt (A' + B + C) + 1/1000000000000000000000000000000).
  { apply sqrt_near; [lra|lra|unfold ulp1; lra|lra|]. eapply Rle_trans; [exact HS|]. lra. }
  destruct (bsqrt_err S Fs Rns) as [Fq Hr].
  assert (NA : sqrt (A' + B + C) = norm3 (Bv x, Bv y, Bv z)) by reflexivity.
  assert (Nd : Rabs (sqrt (A' + B + C) - norm3 (p0, p1, p2)) <= 1733/1000 * E).
  { rewrite NA. eapply Rle_trans; [apply norm3_sub|]. apply norm3_bnd; [lra|]. cbn [sub3 bnd]. auto. }
  set (n := norm3 (p0, p1, p2)) in *. set (m := sqrt (A' + B + C)) in *. set (r := sqrt (Bv S)) in *. clearbody n m r. clear NA.
  split; [exact Fq|]. replace (5 * A / 2251799813685248) with (5 * E) by (unfold E; field). unfold ulp1 in Hq, Hr.
  assert (M : 0 <= m + 1733/1000 * E /\ m <= 1733/1000 * A + 1733/1000 * E) by (unfold Rabs in Nd; destruct (Rcase_abs _) in Nd; lra).
  assert (Rq : r <= 2 * A) by (unfold Rabs in Hq; destruct (Rcase_abs _) in Hq; lra).
  assert (EA : / 9007199254740992 * A = E / 4) by (unfold E; field). clearbody E.
  apply Rabs_le. unfold Rabs in Nd, Hq, Hr. destruct (Rcase_abs _) in Nd; destruct (Rcase_abs _) in Hq; destruct (Rcase_abs _) in Hr; lra.
Qed.

Definition slack (A : R) : R := 5 * A / 2251799813685248.
Lemma length_B A r : 1 <= A <= 1000000 -> length r = 3%nat -> Forall (coef A) r ->
  apx (length_numerical Bnum r) (norm3 (tri3 (vals TAU r))) (slack A) /\ 0 <= norm3 (tri3 (vals TAU r)) <= 2 * A.
Proof.
  intros HA L C. destruct r as [|x [|y [|z [|]]]]; try discriminate L. inversion C as [|? ? Cx C1]; subst. inversion C1 as [|? ? Cy C2]; subst. inversion C2 as [|? ? Cz _]; subst.
  destruct (coef_apx A x Cx) as [[Fx Hx] Bx]. destruct (coef_apx A y Cy) as [[Fy Hy] By]. destruct (coef_apx A z Cz) as [[Fz Hz] Bz].
  assert (K : 1 * (k0 * A) = A / 2251799813685248) by (unfold k0; field). rewrite K in *.
  unfold length_numerical, slack. cbn [vals map tri3]. apply norm_B; [exact HA|cbn; auto|]. split; [split; assumption|]. split; split; assumption.
Qed.
Lemma distance_B A u v : 1 <= A <= 1000000 -> good 6 u -> good 6 v -> gap_ok A u v ->
  exists d, distance_in_perp_space Bnum u v = Ok d /\ apx d (dist3 (pp u) (pp v)) (slack A) /\ dist3 (pp u) (pp v) <= 2 * A.
Proof.
  intros HA Gu Gv Gp. destruct (diff_proj u v Gu Gv) as (d & r & Ed & _ & _ & Er & [_ Lr] & Vr). unfold distance_in_perp_space. rewrite Ed. cbn [bind]. rewrite Er. cbn [bind].
  destruct (length_B A r HA Lr (Gp d r Ed Er)) as [Ax Bd]. rewrite Vr in *. exists (length_numerical Bnum r). split; [reflexivity|]. split; [exact Ax|apply Bd].
Qed.
Lemma farther_B A c vs dd : 1 <= A <= 1000000 -> good 6 c -> goods 6 vs -> (forall v, In v vs -> gap_ok A v c) -> Bfin dd = true -> 0 <= Bv dd <= 3 * A ->
  exists r, foldM (farther Bnum c) dd vs = Ok r /\ Bfin r = true /\ Bv dd <= Bv r <= 3 * A /\ (forall v, In v vs -> dist3 (pp v) (pp c) - slack A <= Bv r).
Proof.
  intros HA Gc Gv. revert dd. induction Gv as [|v vs Hv _ IH]; intros dd Gp Fd Bd; cbn [foldM].
  - exists dd. split; [reflexivity|]. split; [exact Fd|]. split; [lra|intros v []].
  - destruct (diff_proj v c Hv Gc) as (d & r & Ed & _ & _ & Er & [_ Lr] & Vr). unfold farther at 1. rewrite Ed. cbn [bind]. rewrite Er. cbn [bind]. cbv zeta.
    destruct (length_B A r HA Lr (Gp v (or_introl eq_refl) d r Ed Er)) as [[Fl Hl] Bl]. rewrite Vr in Hl, Bl. fold (dist3 (pp v) (pp c)) in Hl, Bl.
    set (l := length_numerical Bnum r) in *. assert (Sl : 0 < slack A <= A) by (unfold slack; lra).
    assert (Bl' : dist3 (pp v) (pp c) - slack A <= Bv l <= 3 * A) by (unfold Rabs in Hl; destruct (Rcase_abs _) in Hl; lra).
    assert (X : exists e, (if flt Bnum dd l then l else dd) = e /\ Bfin e = true /\ Bv dd <= Bv e <= 3 * A /\ dist3 (pp v) (pp c) - slack A <= Bv e).
    { destruct (flt Bnum dd l) eqn:El; eexists; (split; [reflexivity|]).
      - apply blt_spec in El; try assumption. split; [exact Fl|]. lra.
      - split; [exact Fd|]. destruct (Rlt_dec (Bv dd) (Bv l)) as [Lt|Ge]; [rewrite blt_true in El by assumption; discriminate|lra]. }
    destruct X as (e & -> & Fe & Be & De). destruct (IH e) as (r' & Er' & Fr & Br & Dr); [intros u Iu; apply Gp; right; exact Iu|exact Fe|lra|].
    exists r'. split; [exact Er'|]. split; [exact Fr|]. split; [lra|]. intros u [<-|Iu]; [lra|exact (Dr u Iu)].
Qed.
Lemma ball_B A vs a c : 1 <= A <= 1000000 -> (a = A3 vs \/ exists o, a = A4 o /\ vs = concat o) -> goods 6 vs -> good 6 c -> (forall v, In v vs -> gap_ok A v c) ->
  exists r, ball_radius_obj Bnum a c = Ok r /\ Bfin r = true /\ 0 <= Bv r <= 3 * A /\ (forall v, In v vs -> dist3 (pp v) (pp c) - slack A <= Bv r).
Proof.
  intros HA Ha Gv Gc Gp. unfold ball_radius_obj. destruct (perp_space_spec_flat vs a Ha Gv) as (u & -> & I & _ & S). cbn [bind].
  destruct (apx_Z 0) as [[Fz _] Vz]; [cbn; lia|].
  destruct (farther_B A c u (fZ Bnum 0) HA Gc (goods_incl _ _ _ Gv I) (fun v Iv => Gp v (I v Iv)) Fz) as (r & E & Fr & Br & Dr); [rewrite Vz; lra|].
  rewrite Vz in Br. exists r. split; [exact E|]. split; [exact Fr|]. split; [lra|].
  intros v Hv. assert (Hp : In (ppoint v) (map ppoint u)) by (apply S, in_map, Hv).
  apply in_map_iff in Hp as (w & Ew & Hw). rewrite <- (pp_ppoint _ _ Ew). apply Dr, Hw.
Qed.
(** Spheres that overlap by more than the rounding errors. *)
Lemma rough_B A t c1 c2 r v R : 1 <= A <= 1000000 -> goods 6 t -> centroid t = Ok c1 -> good 6 c1 -> good 6 c2 -> (forall v, In v t -> gap_ok A v c1) -> gap_ok A c1 c2 ->
  Bfin r = true -> 0 <= Bv r <= 3 * A -> R - slack A <= Bv r -> In v t -> dist3 (pp c1) (pp c2) + A / 10000000000000 <= dist3 (pp v) (pp c1) + R ->
  rough_check_intersection_tetrahedron_obj Bnum t c2 r = Ok true.
Proof.
  intros HA G Ec G1 G2 Gp Gc Fr Br Lr Iv M. unfold rough_check_intersection_tetrahedron_obj. rewrite Ec. cbn [bind].
  destruct (ball_B A t (A3 t) c1 HA (or_introl eq_refl) G G1 Gp) as (b & Eb & Fb & Bb & Db). unfold ball_radius. rewrite Eb. cbn [bind].
  destruct (distance_B A c1 c2 HA G1 G2 Gc) as (d & Ed & [Fd Hd] & Bd). rewrite Ed. cbn [bind]. f_equal. specialize (Db v Iv).
  assert (L : Rabs (Bv b + Bv r) <= bpow radix2 500) by (rewrite Rabs_pos_eq by lra; pose proof big_room; pose proof big_1; lra).
  destruct (bplus_err b r Fb Fr L) as [[Fs Hs] _]. rewrite (Rabs_pos_eq (Bv b + Bv r)) in Hs by lra. apply ble_true; [exact Fd|exact Fs|].
  pose proof eta_lt. pose proof eta_pos. unfold slack, ulp1 in *. unfold Rabs in Hd, Hs. destruct (Rcase_abs _) in Hd; destruct (Rcase_abs _) in Hs; lra.
Qed.
End Lib.
