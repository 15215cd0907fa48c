(** Edge midpoints of dode2 in binary64, compared by sorting. *)
From Coq Require Import Reals List ZArith Bool Lia Lra Permutation.
From Flocq Require Import Core IEEE754.BinarySingleNaN IEEE754.Binary IEEE754.Bits.
From Verif Require Import Base.Res Model.Tau Model.Arr Model.Unique Model.Num Model.DodeNumeric Model.DodeDedup Model.DodeIntersect Model.IcoSurface
  Spec.LinAlg Spec.Value Spec.RVec Spec.Shape Spec.Mean Spec.DodeSpec Spec.Sets Spec.Space Spec.Float Spec.Plane Spec.Surface Spec.Outline Spec.Grid Spec.SolidFloat
  Proofs.ResLemmas Proofs.RVecLemmas Proofs.Irrational Proofs.NumLemmas Proofs.RoundLemmas Proofs.FloatCalc Proofs.FloatGeom Proofs.DodeFloat Proofs.MeanLemmas Proofs.UniqueLemmas Proofs.SurfaceLemmas Proofs.DodeSurfaceLemmas
  Proofs.GridLemmas Proofs.GridCross Proofs.GridInter Proofs.P_MachineVec Proofs.PlaneLemmas Proofs.P_DodeVec Proofs.SolidFloat.
Import ListNotations.
Local Open Scope R_scope.
Local Notation Bnum := Bmath.

Section Centres.
Context {la : linalg}.

Lemma dp_bound A v : coefs A v -> bnd (6 * A) (dp v).
Proof.
  intros [L C]. destruct v as [|v0 [|v1 [|v2 [|v3 [|v4 [|v5 [|]]]]]]]; try discriminate L. clear L.
  inversion C as [|? ? C0 X0]; subst. inversion X0 as [|? ? C1 X1]; subst. inversion X1 as [|? ? C2 X2]; subst. inversion X2 as [|? ? C3 X3]; subst. inversion X3 as [|? ? C4 X4]; subst. inversion X4 as [|? ? C5 _]; subst.
  clear C X0 X1 X2 X3 X4. apply (dcoef_apx (la := la)) in C0 as [_ B0], C1 as [_ B1], C2 as [_ B2], C3 as [_ B3], C4 as [_ B4], C5 as [_ B5].
  assert (Epp : dp [v0; v1; v2; v3; v4; v5] = (- SIN * val SIN v0 + val SIN v1 - 1/2 * val SIN v3, - (1/2) * val SIN v0 + val SIN v2 - SIN * val SIN v3, val SIN v5)).
  { unfold dp, dppoint, vals. cbn [map]. generalize (val SIN v0) (val SIN v1) (val SIN v2) (val SIN v3) (val SIN v4) (val SIN v5). intros.
    unfold dperp, matvec, dperp_rows. cbn. unfold dot; cbn. apply f_equal2; [apply f_equal2|]; field. }
  rewrite Epp. revert B0 B1 B2 B3 B4 B5. generalize (val SIN v0) (val SIN v1) (val SIN v2) (val SIN v3) (val SIN v4) (val SIN v5). intros r0 r1 r2 r3 r4 r5 B0 B1 B2 B3 B4 B5.
  pose proof SIN_1 as SN. pose proof (Rabs_pos SIN) as SP. pose proof (Rabs_pos r0) as P0.
  assert (Mu : forall s r, Rabs s <= 1 -> Rabs r <= A -> Rabs (s * r) <= A) by (intros s r Hs Hr; rewrite Rabs_mult; pose proof (Rabs_pos s); pose proof (Rabs_pos r); nra).
  assert (HF : Rabs (1/2) <= 1) by (rewrite Rabs_right; lra).
  assert (On : forall x y z, Rabs x <= A -> Rabs y <= A -> Rabs z <= A -> Rabs (x + y - z) <= 6 * A).
  { intros x y z Hx Hy Hz. pose proof (tri2m _ _ _ _ (tri2 _ _ _ _ Hx Hy) Hz). lra. }
  cbn [bnd]. split; [|split; [|lra]]; apply On; try assumption; apply Mu; try assumption; rewrite ?Rabs_Ropp; assumption.
Qed.
Lemma dnear_of v : coefs 100000 v -> exists x, dinternal Bnum v = Ok x /\ near x (dp v).
Proof.
  intros C. destruct (dinternal_B 100000 v ltac:(lra) C) as (x & E & H). exists x. split; [exact E|]. pose proof (dp_bound _ _ C) as B. unfold near. destruct x as [[a b] c], (dp v) as [[p q] r].
  destruct H as (H1 & H2 & H3), B as (B1 & B2 & B3). split; [split; [|split]|split; [|split]]; first [eapply apx_weaken; [eassumption|lra] | lra].
Qed.
Lemma dcentre_near e q B : e <> [] -> (length e <= 4)%nat -> (0 <= B)%Z -> (0 < q <= 90000000)%Z -> (4 * B * q <= 10^15)%Z -> (3 * B <= 100000 * q)%Z -> grids 6 q B e ->
  exists x p, dcentre Bnum e = Ok x /\ near x p /\ [fst (fst p); snd (fst p); snd p] = dpcentre e.
Proof.
  intros Ne Le PB Hq H1 H2 Ge. pose proof (grids_goods _ _ _ Ge) as G. unfold dcentre.
  assert (Ln : (0 < length e)%nat) by (destruct e; [congruence|cbn; lia]).
  destruct (L_C102_centroid q B e PB Hq Ne) as (m & _ & Em & [Lm Gm]); [nia|nia|exact Ge|]. rewrite Em. cbn [bind].
  destruct (dnear_of m) as (x & Ex & Nx).
  { split; [exact Lm|]. eapply Forall_impl; [|exact Gm]. intros c Gc. apply (grid_coef _ _ _) in Gc; [exact Gc| | | |]; nia. }
  exists x, (dp m). split; [exact Ex|]. split; [exact Nx|]. destruct (dcentre_R e Ne G) as (p & Ep & Kp). unfold dcentre in Ep. rewrite Em in Ep. cbn [bind] in Ep.
  rewrite dinternal_R in Ep by exact Lm. injection Ep as <-. exact Kp.
Qed.
Lemma dcentre_perm N e g : e <> [] -> goods 6 e -> Permutation e g -> dcentre N e = dcentre N g.
Proof. intros Ne G P. unfold dcentre. rewrite (L_C63_order e g Ne G P). reflexivity. Qed.
Lemma dpcentre_perm e g : Permutation e g -> dpcentre e = dpcentre g.
Proof. intros P. unfold dpcentre. apply mean_perm, Permutation_map, P. Qed.

(** A list of edges: any two are the same up to the order of the vertices, or have midpoints
    told apart. *)
Section List.
Variables (q B : Z) (es : obj4).
Hypothesis PB : (0 <= B)%Z.
Hypothesis Hq : (0 < q <= 90000000)%Z.
Hypothesis H1 : (4 * B * q <= 10^15)%Z.
Hypothesis H2 : (3 * B <= 100000 * q)%Z.
Hypothesis Hes : Forall (fun e => e <> [] /\ (length e <= 4)%nat /\ grids 6 q B e) es.
Hypothesis Hsep : forall e g, In e es -> In g es -> Permutation e g \/ told_apart (dpcentre e) (dpcentre g).

Lemma des_near e : In e es -> e <> [] /\ goods 6 e /\ exists x p, dcentre Bnum e = Ok x /\ near x p /\ [fst (fst p); snd (fst p); snd p] = dpcentre e.
Proof.
  intros He. rewrite Forall_forall in Hes. destruct (Hes e He) as (Ne & Le & Ge). split; [exact Ne|]. split; [exact (grids_goods _ _ _ Ge)|]. exact (dcentre_near e q B Ne Le PB Hq H1 H2 Ge).
Qed.
Lemma des_same e g : In e es -> In g es -> dpcentre e = dpcentre g -> dcentre Bnum e = dcentre Bnum g.
Proof.
  intros He Hg E. destruct (des_near e He) as (Ne & G & _). destruct (Hsep e g He Hg) as [P|A]; [exact (dcentre_perm _ e g Ne G P)|]. rewrite E in A. apply told_irrefl in A as [].
Qed.
Lemma des_close e g x y : In e es -> In g es -> dcentre Bnum e = Ok x -> dcentre Bnum g = Ok y -> (allclose Bnum x y = true <-> dpcentre e = dpcentre g).
Proof.
  intros He Hg Ex Ey. destruct (des_near e He) as (Ne & G & x' & p & Ex' & Nx & Kp). destruct (des_near g Hg) as (_ & _ & y' & r & Ey' & Ny & Kr).
  rewrite Ex in Ex'. injection Ex' as <-. rewrite Ey in Ey'. injection Ey' as <-. split.
  - intros A. destruct (Hsep e g He Hg) as [P|T]; [exact (dpcentre_perm e g P)|]. rewrite <- Kp, <- Kr in T. rewrite (near_apart x y p r Nx Ny T) in A. discriminate A.
  - intros E. pose proof (des_same e g He Hg E) as S. rewrite Ex, Ey in S. injection S as <-.
    destruct (near_ordered [x]) as (v & _ & O); [intros z [<-|[]]; exists p; exact Nx|]. 
    destruct (near_ordered [x]) as (v' & _ & O'); [intros z [<-|[]]; exists p; exact Nx|]. apply O'; cbn; auto.
Qed.
Lemma des_ordered ps : mapM (dcentre Bnum) es = Ok ps -> ordered Bnum (allclose Bnum) ps.
Proof.
  intros E. apply near_ordered. intros x Hx. apply mapM_Forall2 in E. apply In_nth_error in Hx as (i & Hx). destruct (F2_nth' _ _ _ _ _ E Hx) as (e & He & Ex). apply nth_error_In in He. destruct (des_near e He) as (_ & _ & x' & p & Ex' & Nx & _).
  rewrite Ex in Ex'. injection Ex' as <-. exists p. exact Nx.
Qed.
End List.
End Centres.
