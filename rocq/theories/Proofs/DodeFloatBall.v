(** The test of the bounding circles of dode2 in binary64. *)
From Coq Require Import Reals List ZArith Bool Lia Lra Psatz.
From Flocq Require Import Core IEEE754.BinarySingleNaN IEEE754.Binary IEEE754.Bits.
From Verif Require Import Base.Res Model.Tau Model.Arr Model.Num Model.Vectors Model.DodeNumeric Model.DodeMath1 Model.DodeDedup Model.DodeIntersect
  Spec.LinAlg Spec.Value Spec.RVec Spec.Shape Spec.DodeSpec Spec.Sets Spec.Space Spec.Tetra Spec.Plane Spec.Float Spec.PlaneFloat
  Proofs.ResLemmas Proofs.RVecLemmas Proofs.DedupLemmas Proofs.DodeDedupLemmas Proofs.NumLemmas Proofs.IntersectLemmas Proofs.PlaneLemmas Proofs.DodeIntersectLemmas Proofs.CoplanarLemmas Proofs.MachineLemmas Proofs.RoundLemmas Proofs.FloatCalc Proofs.FloatGeom Proofs.DodeFloat Proofs.DodeFloatGeom Proofs.FloatBall.
Import ListNotations.
Local Open Scope R_scope.
Local Notation Bnum := Bmath.

Section Lib.
Context {la : linalg} {LA : linalg_ok la}.

Lemma dlength_B A r : 1 <= A <= 1000000 -> length r = 3%nat -> Forall (coef A) r ->
  apx (dlength_numerical Bnum r) (norm3 (tri3 (vals SIN r))) (slack A) /\ 0 <= norm3 (tri3 (vals SIN r)) <= 2 * A.
Proof.
  intros HA L C. destruct r as [|x [|y [|z [|]]]]; try discriminate L. inversion C as [|? ? Cx C1]; subst. inversion C1 as [|? ? Cy C2]; subst. inversion C2 as [|? ? Cz _]; subst.
  destruct (dcoef_apx A x Cx) as [[Fx Hx] Bx]. destruct (dcoef_apx A y Cy) as [[Fy Hy] By]. destruct (dcoef_apx A z Cz) as [[Fz Hz] Bz].
  assert (K : 1 * (k0 * A) = A / 2251799813685248) by (unfold k0; field). rewrite K in *.
  unfold dlength_numerical, slack. cbn [vals map tri3]. apply norm_B; [exact HA|cbn; auto|]. split; [split; assumption|]. split; split; assumption.
Qed.
Lemma ddistance_B A u v : 1 <= A <= 1000000 -> good 6 u -> good 6 v -> dgap_ok A u v ->
  exists d, ddistance_in_perp_space Bnum u v = Ok d /\ apx d (dist3 (dp u) (dp v)) (slack A) /\ dist3 (dp u) (dp v) <= 2 * A.
Proof.
  intros HA Gu Gv Gp. destruct (ddiff_proj u v Gu Gv) as (d & r & Ed & _ & _ & Er & [_ Lr] & Vr). unfold ddistance_in_perp_space. rewrite Ed. cbn [bind]. rewrite Er. cbn [bind].
  destruct (dlength_B A r HA Lr (Gp d r Ed Er)) as [Ax Bd]. rewrite Vr in *. exists (dlength_numerical Bnum r). split; [reflexivity|]. split; [exact Ax|apply Bd].
Qed.
Lemma dfarther_B A c vs dd : 1 <= A <= 1000000 -> good 6 c -> goods 6 vs -> (forall v, In v vs -> dgap_ok A v c) -> Bfin dd = true -> 0 <= Bv dd <= 3 * A ->
  exists r, foldM (dfarther Bnum c) dd vs = Ok r /\ Bfin r = true /\ Bv dd <= Bv r <= 3 * A /\ (forall v, In v vs -> dist3 (dp v) (dp c) - slack A <= Bv r).
Proof.
  intros HA Gc Gv. revert dd. induction Gv as [|v vs Hv _ IH]; intros dd Gp Fd Bd; cbn [foldM].
  - exists dd. split; [reflexivity|]. split; [exact Fd|]. split; [lra|intros v []].
  - destruct (ddiff_proj v c Hv Gc) as (d & r & Ed & _ & _ & Er & [_ Lr] & Vr). unfold dfarther at 1. rewrite Ed. cbn [bind]. rewrite Er. cbn [bind]. cbv zeta.
    destruct (dlength_B A r HA Lr (Gp v (or_introl eq_refl) d r Ed Er)) as [[Fl Hl] Bl]. rewrite Vr in Hl, Bl. fold (dist3 (dp v) (dp c)) in Hl, Bl.
    set (l := dlength_numerical Bnum r) in *. assert (Sl : 0 < slack A <= A) by (unfold slack; lra).
    assert (Bl' : dist3 (dp v) (dp c) - slack A <= Bv l <= 3 * A) by (unfold Rabs in Hl; destruct (Rcase_abs _) in Hl; lra).
    assert (X : exists e, (if flt Bnum dd l then l else dd) = e /\ Bfin e = true /\ Bv dd <= Bv e <= 3 * A /\ dist3 (dp v) (dp c) - slack A <= Bv e).
    { destruct (flt Bnum dd l) eqn:El; eexists; (split; [reflexivity|]).
      - apply blt_spec in El; try assumption. split; [exact Fl|]. lra.
      - split; [exact Fd|]. destruct (Rlt_dec (Bv dd) (Bv l)) as [Lt|Ge]; [rewrite blt_true in El by assumption; discriminate|lra]. }
    destruct X as (e & -> & Fe & Be & De). destruct (IH e) as (r' & Er' & Fr & Br & Dr); [intros u Iu; apply Gp; right; exact Iu|exact Fe|lra|].
    exists r'. split; [exact Er'|]. split; [exact Fr|]. split; [lra|]. intros u [<-|Iu]; [lra|exact (Dr u Iu)].
Qed.
Lemma dball_B A vs a c : 1 <= A <= 1000000 -> (a = A3 vs \/ exists o, a = A4 o /\ vs = concat o) -> goods 6 vs -> good 6 c -> (forall v, In v vs -> dgap_ok A v c) ->
  exists r, dball_radius_obj Bnum a c = Ok r /\ Bfin r = true /\ 0 <= Bv r <= 3 * A /\ (forall v, In v vs -> dist3 (dp v) (dp c) - slack A <= Bv r).
Proof.
  intros HA Ha Gv Gc Gp. unfold dball_radius_obj. destruct (dperp_space_spec_flat vs a Ha Gv) as (u & -> & I & _ & S). cbn [bind].
  destruct (apx_Z 0) as [[Fz _] Vz]; [cbn; lia|].
  destruct (dfarther_B A c u (fZ Bnum 0) HA Gc (goods_incl _ _ _ Gv I) (fun v Iv => Gp v (I v Iv)) Fz) as (r & E & Fr & Br & Dr); [rewrite Vz; lra|].
  rewrite Vz in Br. exists r. split; [exact E|]. split; [exact Fr|]. split; [lra|].
  intros v Hv. assert (Hp : In (dppoint v) (map dppoint u)) by (apply S, in_map, Hv).
  apply in_map_iff in Hp as (w & Ew & Hw). rewrite <- (dp_ppoint _ _ Ew). apply Dr, Hw.
Qed.
(** Spheres that overlap by more than the rounding errors. *)
Lemma drough_B A t c1 c2 r v R : 1 <= A <= 1000000 -> goods 6 t -> dcentroid t = Ok c1 -> good 6 c1 -> good 6 c2 -> (forall v, In v t -> dgap_ok A v c1) -> dgap_ok A c1 c2 ->
  Bfin r = true -> 0 <= Bv r <= 3 * A -> R - slack A <= Bv r -> In v t -> dist3 (dp c1) (dp c2) + A / 10000000000000 <= dist3 (dp v) (dp c1) + R ->
  rough_check_intersection_triangle_obj Bnum t c2 r = Ok true.
Proof.
  intros HA G Ec G1 G2 Gp Gc Fr Br Lr Iv M. unfold rough_check_intersection_triangle_obj. rewrite Ec. cbn [bind].
  destruct (dball_B A t (A3 t) c1 HA (or_introl eq_refl) G G1 Gp) as (b & Eb & Fb & Bb & Db). unfold dball_radius. rewrite Eb. cbn [bind].
  destruct (ddistance_B A c1 c2 HA G1 G2 Gc) as (d & Ed & [Fd Hd] & Bd). rewrite Ed. cbn [bind]. f_equal. specialize (Db v Iv).
  assert (L : Rabs (Bv b + Bv r) <= bpow radix2 500) by (rewrite Rabs_pos_eq by lra; pose proof big_room; pose proof big_1; lra).
  destruct (bplus_err b r Fb Fr L) as [[Fs Hs] _]. rewrite (Rabs_pos_eq (Bv b + Bv r)) in Hs by lra. apply ble_true; [exact Fd|exact Fs|].
  pose proof eta_lt. pose proof eta_pos. unfold slack, ulp1 in *. unfold Rabs in Hd, Hs. destruct (Rcase_abs _) in Hd; destruct (Rcase_abs _) in Hs; lra.
Qed.
End Lib.
