(** The coplanarity check in binary64 finds the answer if a sample is wide enough. *)
From Coq Require Import Reals List ZArith Bool Lia Lra Psatz.
From Flocq Require Import Core IEEE754.BinarySingleNaN IEEE754.Binary IEEE754.Bits.
From Verif Require Import Base.Res Model.Tau Model.Arr Model.Num Model.IcoNumeric Model.IcoDedup Model.IcoSurface Model.MachineDedup Model.MachineEdges Model.MachineInter
  Spec.LinAlg Spec.Value Spec.RVec Spec.Shape Spec.IcoSpec Spec.Sets Spec.Space Spec.Tetra Spec.Grid Spec.Float Spec.EdgesFloat
  Proofs.ResLemmas Proofs.NumLemmas Proofs.DedupLemmas Proofs.PlaneLemmas Proofs.CoplanarLemmas Proofs.OverlapLemmas Proofs.EdgeLemmas Proofs.SolidLemmas Proofs.BorderLemmas Proofs.GridInter Proofs.MachineLemmas Proofs.RoundLemmas Proofs.FloatCalc Proofs.FloatGeom Proofs.FloatTests Proofs.FloatCoplanar.
Import ListNotations.
Local Open Scope R_scope.
Local Notation Bnum := Bmath.

Section Lib.
Context {la : linalg} {LA : linalg_ok la}.

Lemma small_true_B k D x n : V k (D * D) 17 x n -> IcoNumeric.small Bnum x = true -> bnd (1/1000000 + 1/10000000000 + 17 * (k * (D * D))) n.
Proof.
  destruct x as [[x0 x1] x2], n as [[n0 n1] n2]. intros ([F0 H0] & [F1 H1] & [F2 H2]) S. unfold IcoNumeric.small in S.
  destruct EPS_B as [Fe He]. assert (He' : Bv (EPS Bnum) <= 1/1000000 + 1/10000000000) by (unfold Rabs in He; destruct (Rcase_abs _); lra).
  assert (K : forall y r, Bfin y = true -> Rabs (Bv y - r) <= 17 * (k * (D * D)) -> flt Bnum (fabs Bnum y) (EPS Bnum) = true -> Rabs r <= 1/1000000 + 1/10000000000 + 17 * (k * (D * D))).
  { intros y r Fy Hy L. apply blt_spec in L; [|apply babs_fin; exact Fy|exact Fe]. rewrite babs_val in L. apply Rabs_two in Hy. lra. }
  apply andb_true_iff in S as [S S2]. apply andb_true_iff in S as [S0 S1]. split; [exact (K _ _ F0 H0 S0)|]. split; [exact (K _ _ F1 H1 S1)|exact (K _ _ F2 H2 S2)].
Qed.
Lemma first_good_none (xs : list (Num.pt Bnum)) draws : first_good Bnum xs draws = Ok None -> forall d, In d draws -> exists n, triple_normal Bnum xs d = Ok n /\ IcoNumeric.small Bnum n = true.
Proof.
  induction draws as [|d draws IH]; cbn [first_good]; [intros _ d []|]. intros H. apply bind_Ok_inv in H as (n & En & H). destruct (IcoNumeric.small Bnum n) eqn:S; [|discriminate].
  intros e [<-|He]; [exists n; auto|exact (IH H e He)].
Qed.
Lemma tame_sub A D vs ws : tame A D vs -> incl ws vs -> tame A D ws.
Proof.
  intros (HA & HD & HM & C & S) I. repeat (split; [assumption|]). split; [apply Forall_forall; intros v Hv; rewrite Forall_forall in C; apply C, I, Hv|].
  intros p q Hp Hq. apply in_map_iff in Hp as (v & <- & Hv). apply in_map_iff in Hq as (w & <- & Hw). apply S; apply in_map, I; assumption.
Qed.
Lemma at_pos {E xs ps} : Forall2 (P (la := la) E) xs ps -> forall i x, get xs i = Ok x -> exists p, nth_error ps i = Some p /\ P E x p.
Proof.
  intros F2 i x G. unfold get in G. revert i G. induction F2 as [|y q ys qs Hy _ IH]; intros [|i] G; try discriminate; cbn in *; [injection G as <-; eauto|apply IH; exact G].
Qed.
Lemma decided A D draws vs : tame A D vs -> (3 < length vs)%nat -> coplanar_check_numeric_tau Bnum draws vs = Ok None ->
  forall i j h a b c, In (i, j, h) draws -> nth_error vs i = Some a -> nth_error vs j = Some b -> nth_error vs h = Some c -> ~ wide (pp a) (pp b) (pp c).
Proof.
  intros (HA & HD & HM & C & Sp) L H i j h a b c Hin Ea Eb Ec W. destruct (kk_ok A D HA HD) as (K1 & K2 & K3 & K4). pose proof (kk2_ok A D HA HD HM) as K5.
  destruct (internals_B A vs ltac:(lra) C) as (xs & Ex & Px). unfold coplanar_check_numeric_tau in H. rewrite Ex in H. cbn [bind] in H.
  assert (Lx : length xs = length vs) by (rewrite <- (map_length pp vs); clear - Px; induction Px; cbn; congruence).
  unfold coplanar_check_numeric in H. rewrite Lx, (proj2 (Nat.ltb_lt _ _) L) in H. apply bind_Ok_inv in H as (g & Eg & H).
  destruct g as [[d n]|]; [apply bind_Ok_inv in H as (? & _ & H); apply bind_Ok_inv in H as (? & _ & H); discriminate|]. clear H.
  destruct (first_good_none xs draws Eg _ Hin) as (n & En & Sm). unfold triple_normal in En.
  apply bind_Ok_inv in En as (y & Gy & En). apply bind_Ok_inv in En as (x & Gx & En). apply bind_Ok_inv in En as (z & Gz & En). injection En as <-.
  destruct (at_pos Px i x Gx) as (p & Np & Pp). destruct (at_pos Px j y Gy) as (p1 & Np1 & Pp1). destruct (at_pos Px h z Gz) as (p2 & Np2 & Pp2).
  rewrite nth_error_map, Ea in Np. rewrite nth_error_map, Eb in Np1. rewrite nth_error_map, Ec in Np2. cbn [option_map] in Np, Np1, Np2. injection Np as <-. injection Np1 as <-. injection Np2 as <-.
  assert (Ia := in_map pp _ _ (nth_error_In _ _ Ea)). assert (Ib := in_map pp _ _ (nth_error_In _ _ Eb)). assert (Ic := in_map pp _ _ (nth_error_In _ _ Ec)).
  destruct (normal_B (kk A D) D (err A) K1 K2 K3 HD x y z _ _ _ Pp Pp1 Pp2 (Sp _ _ Ib Ia) (Sp _ _ Ic Ia)) as [Vn _].
  pose proof (small_true_B _ _ _ _ Vn Sm) as Bn. unfold wide in W. destruct (cross3 _ _) as [[n0 n1] n2]. destruct Bn as (B0 & B1 & B2). lra.
Qed.
Lemma copl_samples_B q B A D draws t u vs : (0 <= B)%Z -> (0 < q <= 90000000)%Z -> (B * q <= 10^15)%Z -> grids 6 q B (t ++ u) ->
  tame A D (t ++ u) -> (A + D) * D ^ 2 <= 250 -> very_clear_planes (t ++ u) ->
  m_remove_doubling_in_perp_space (A3 (t ++ u)) = Ok vs -> Forall (valid_draw (length vs)) draws ->
  (length vs <= 3)%nat \/ (exists i j k a b c, In (i, j, k) draws /\ nth_error vs i = Some a /\ nth_error vs j = Some b /\ nth_error vs k = Some c /\ wide (pp a) (pp b) (pp c)) ->
  exists b, m_coplanar_check_two_triangles Bnum draws t u = Ok b /\ (b = true <-> coplanar3 (map pp (t ++ u))).
Proof.
  intros PB Hq HB G Tm M St Ev Vd Sp. destruct (dedup_eq q B (t ++ u) (A3 (t ++ u)) (or_introl eq_refl) PB (proj1 Hq) (proj2 Hq) HB G) as (vs' & E1 & E2 & _). rewrite Ev in E1. injection E1 as <-.
  destruct (perp_space_spec (t ++ u) (grids_goods _ _ _ G)) as (vs' & Ev' & I & _ & SS). rewrite E2 in Ev'. injection Ev' as <-. apply pp_same in SS.
  assert (CC : coplanar3 (map pp (t ++ u)) <-> coplanar3 (map pp vs)).
  { unfold coplanar3. split; intros (n & d & Nn & Fp); exists n, d; (split; [exact Nn|]); rewrite Forall_forall in *; intros p Hp; apply Fp, SS, Hp. }
  pose proof (tame_sub A D _ _ Tm I) as Tv. unfold m_coplanar_check_two_triangles. rewrite Ev. cbn [bind].
  destruct (flat_total A D draws vs Tv Vd) as (c & Ec).
  destruct (le_lt_dec (length vs) 3) as [L|L].
  - exists true. split; [|split; [intros _|reflexivity]; apply CC; exact (few_coplanar (map pp vs) ltac:(rewrite map_length; lia))].
    assert (Et : coplanar_check_numeric_tau Bnum draws vs = Ok (Some true)).
    { destruct Tv as (HA & HD & HM & C & _). destruct (internals_B A vs ltac:(lra) C) as (xs & Ex & Px). unfold coplanar_check_numeric_tau. rewrite Ex. cbn [bind].
      assert (Lx : length xs = length vs) by (rewrite <- (map_length pp vs); clear - Px; induction Px; cbn; congruence).
      unfold coplanar_check_numeric. destruct (Nat.ltb_spec 3 (length xs)); [lia|reflexivity]. }
    rewrite Et. reflexivity.
  - rewrite Ec. cbn [bind]. destruct Sp as [Sp|(i & j & k & a & b & c' & Hin & Ea & Eb & Ecc & Big)]; [lia|].
    destruct c as [[|]|].
    + exists true. split; [reflexivity|]. split; [intros _|reflexivity]. apply CC.
      destruct Tv as (HA & HD & HM & C & Spd). destruct (kk_ok A D HA HD) as (K1 & K2 & K3 & K4). pose proof (kk2_ok A D HA HD HM) as K5.
      destruct (internals_B A vs ltac:(lra) C) as (xs & Ex & Px). unfold coplanar_check_numeric_tau in Ec. rewrite Ex in Ec. cbn [bind] in Ec.
      destruct (coplanar_fig (kk A D) D (err A) K1 K2 K3 HD draws xs (map pp vs) true Px Spd ltac:(rewrite map_length; exact L) Ec) as (pi & pj & pk & Ii & Ij & Ik & Nm & Al).
      set (m := cross3 (sub3 pj pi) (sub3 pk pi)) in *.
      exists m, (dot3 m pi). split.
      { intros Z. rewrite Z in Nm. unfold o3, norm3 in Nm. cbn in Nm. replace (0 * 0 + 0 * 0 + 0 * 0) with 0 in Nm by ring. rewrite sqrt_0 in Nm. lra. }
      apply Forall_forall. intros p Hp. rewrite Forall_forall in Al. specialize (Al p Hp).
      apply SS in Hp, Ii, Ij, Ik. apply in_map_iff in Hp as (v & <- & Hv). apply in_map_iff in Ii as (vi & <- & Vi). apply in_map_iff in Ij as (vj & <- & Vj). apply in_map_iff in Ik as (vk & <- & Vk).
      assert (Em : dot3 m (pp v) - dot3 m (pp vi) = dot3 m (sub3 (pp v) (pp vi))) by (destruct m as [[? ?] ?], (pp v) as [[? ?] ?], (pp vi) as [[? ?] ?]; cbn; ring).
      destruct (St vi vj vk v Vi Vj Vk Hv) as [Fl|Fl]; unfold flat4, triple3 in Fl; fold m in Fl; lra.
    + exists false. split; [reflexivity|]. split; [discriminate|]. intros Cp. exfalso. exact (flat_false A D draws vs Tv L M (proj1 CC Cp) Ec).
    + exfalso. exact (decided A D draws vs Tv L Ec i j k a b c' Hin Ea Eb Ecc Big).
Qed.
End Lib.
