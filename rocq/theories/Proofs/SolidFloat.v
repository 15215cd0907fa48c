(** Face and edge centres in binary64, compared by np.allclose and by sorting. *)
From Coq Require Import Reals List ZArith Bool Lia Lra Permutation.
From Flocq Require Import Core IEEE754.BinarySingleNaN IEEE754.Binary IEEE754.Bits.
From Verif Require Import Base.Res Model.Tau Model.Arr Model.Unique Model.Num Model.IcoNumeric Model.IcoDedup Model.IcoIntersect Model.IcoSurface
  Spec.LinAlg Spec.Value Spec.RVec Spec.Shape Spec.Mean Spec.IcoSpec Spec.Sets Spec.Space Spec.Float Spec.Surface Spec.Grid Spec.SolidFloat
  Proofs.ResLemmas Proofs.RVecLemmas Proofs.Irrational Proofs.NumLemmas Proofs.RoundLemmas Proofs.FloatCalc Proofs.FloatGeom Proofs.MeanLemmas Proofs.UniqueLemmas Proofs.SurfaceLemmas Proofs.GridLemmas Proofs.GridCross Proofs.GridInter Proofs.P_MachineVec Proofs.P_Volume.
Import ListNotations.
Local Open Scope R_scope.
Local Notation Bnum := Bmath.

Lemma told_apart_apart p q : told_apart p q -> apart p q.
Proof.
  intros (i & x & y & Ex & Ey & H1 & H2). exists i, x, y. split; [exact Ex|]. split; [exact Ey|]. pose proof (Rabs_pos x). pose proof (Rabs_pos y). split; lra.
Qed.

Section Lib.
Context {la : linalg}.

Lemma big500 x : Rabs x <= 1000000000000 -> Rabs x <= bpow radix2 500.
Proof. intros H. eapply Rle_trans; [exact H|]. apply Rle_trans with (bpow radix2 40); [cbn; lra|apply bpow_le; lia]. Qed.
Lemma lit_B n : (0 < n <= 1000000000)%Z -> apx (flit Bnum 1 n) (1 / IZR n) (2 * ulp1 / IZR n).
Proof.
  intros Hn. unfold flit. destruct (apx_Z 1 ltac:(cbn; lia)) as [[F1 _] V1]. destruct (apx_Z n ltac:(lia)) as [[F2 _] V2].
  assert (Pn : 1 <= IZR n) by (apply (IZR_le 1); lia). assert (Un : IZR n <= 1000000000) by (apply IZR_le; lia).
  assert (I : 0 < / IZR n <= 1) by (split; [apply Rinv_0_lt_compat; lra|rewrite <- Rinv_1; apply Rinv_le_contravar; lra]).
  assert (I2 : / 1000000000 <= / IZR n) by (apply Rinv_le_contravar; lra).
  destruct (bdiv_err (fZ Bnum 1) (fZ Bnum n) F1 F2) as [[Fr Hr] _].
  - rewrite V2. lra.
  - apply big500. rewrite V1, V2. unfold Rdiv. rewrite Rmult_1_l, Rabs_pos_eq by lra. lra.
  - rewrite V1, V2 in Hr. split; [exact Fr|]. eapply Rle_trans; [exact Hr|]. unfold Rdiv. rewrite Rmult_1_l, Rabs_pos_eq by lra. pose proof eta_lt. unfold ulp1 in *. nra.
Qed.
Lemma e8_B : Bfin (f1e8 Bnum) = true /\ 99/10000000000 <= Bv (f1e8 Bnum) <= 101/10000000000.
Proof. destruct (lit_B 100000000 ltac:(cbn; lia)) as [Fx Hx]. unfold f1e8. set (z := flit Bnum 1 100000000) in *. clearbody z. split; [exact Fx|]. unfold ulp1 in Hx. unfold Rabs in Hx. destruct (Rcase_abs _); lra. Qed.
Lemma e5_B : Bfin (f1e5 Bnum) = true /\ 99/10000000 <= Bv (f1e5 Bnum) <= 101/10000000.
Proof. destruct (lit_B 100000 ltac:(cbn; lia)) as [Fx Hx]. unfold f1e5. set (z := flit Bnum 1 100000) in *. clearbody z. split; [exact Fx|]. unfold ulp1 in Hx. unfold Rabs in Hx. destruct (Rcase_abs _); lra. Qed.

(** The tolerance as computed. *)
Lemma tol_B y : Bfin y = true -> Rabs (Bv y) <= 1000000000 ->
  let w := fadd Bnum (f1e8 Bnum) (fmul Bnum (f1e5 Bnum) (fabs Bnum y)) in
  Bfin w = true /\ 0 <= Bv w <= 12/1000000000 + 11/1000000 * Rabs (Bv y).
Proof.
  intros Fy Hy. cbn zeta. destruct e8_B as [F8 H8]. destruct e5_B as [F5 H5]. set (c8 := f1e8 Bnum) in *. set (c5 := f1e5 Bnum) in *. clearbody c8 c5.
  set (Y := Rabs (Bv y)) in *. assert (PY : 0 <= Y) by apply Rabs_pos.
  pose proof (babs_val (la := la) y) as Va. pose proof (babs_fin (la := la) y Fy) as Fa. fold Y in Va. set (ay := fabs Bnum y) in *. clearbody ay.
  assert (Pm : 0 <= Bv c5 * Y <= 101/10000000 * Y) by (split; [apply Rmult_le_pos; lra|apply Rmult_le_compat_r; lra]).
  destruct (bmult_err c5 ay F5 Fa) as [[Fm Hm] _]; [apply big500; rewrite Va, Rabs_pos_eq by lra; lra|]. rewrite Va, (Rabs_pos_eq (Bv c5 * Y)) in Hm by lra.
  set (m := fmul Bnum c5 ay) in *. clearbody m. pose proof eta_lt as El. pose proof eta_pos as Ep.
  assert (Bm : -1/1000000000000000 <= Bv m <= 102/10000000 * Y + 1/1000000000000000).
  { assert (U : 0 <= ulp1 * (Bv c5 * Y) <= 1/1000000000000 * (Bv c5 * Y)) by (unfold ulp1; split; [nra|apply Rmult_le_compat_r; lra]).
    unfold Rabs in Hm. destruct (Rcase_abs _); split; nra. }
  destruct (bplus_err c8 m F8 Fm) as [[Fw Hw] _]; [apply big500; rewrite Rabs_pos_eq by lra; lra|]. rewrite (Rabs_pos_eq (Bv c8 + Bv m)) in Hw by lra.
  split; [exact Fw|]. assert (U : 0 <= ulp1 * (Bv c8 + Bv m) <= 1/1000000000000 * (Bv c8 + Bv m)) by (unfold ulp1; split; [nra|apply Rmult_le_compat_r; lra]).
  unfold Rabs in Hw. destruct (Rcase_abs _); split; nra.
Qed.
Lemma close1_far x y r t : apx x r (1/2000000000) -> apx y t (1/2000000000) -> Rabs r <= 100000000 -> Rabs t <= 100000000 ->
  2/100000000 + 2/100000 * Rabs t < Rabs (r - t) -> close1 Bnum x y = false.
Proof.
  intros Ax Ay Br Bt H. pose proof (apx_abs _ _ _ Ax) as Bx. pose proof (apx_abs _ _ _ Ay) as By. destruct Ax as [Fx Hx], Ay as [Fy Hy]. unfold close1.
  destruct (tol_B y Fy ltac:(lra)) as [Fw [_ Hw]]. set (w := fadd Bnum _ (fmul Bnum _ (fabs Bnum y))) in *. clearbody w.
  assert (D : Rabs (r - t) - 1/1000000000 <= Rabs (Bv x - Bv y)).
  { replace (Bv x - Bv y) with ((r - t) - ((r - Bv x) + (Bv y - t))) by ring. pose proof (Rabs_triang_inv (r - t) ((r - Bv x) + (Bv y - t))) as T.
    pose proof (Rabs_triang (r - Bv x) (Bv y - t)) as T2. rewrite (Rabs_minus_sym r (Bv x)) in T2. lra. }
  assert (D2 : Rabs (Bv x - Bv y) <= 1000000000) by (pose proof (tri2m (Bv x) (Bv y) _ _ Bx By); lra).
  destruct (bminus_err x y Fx Fy) as [[Fd Hd] _]; [apply big500; lra|]. apply ble_false; [apply babs_fin, Fd|exact Fw|]. rewrite babs_val.
  set (d := fsub Bnum x y) in *. clearbody d. pose proof eta_lt as El. pose proof (Rabs_triang_inv (Bv x - Bv y) (Bv x - Bv y - Bv d)) as T.
  replace (Bv x - Bv y - (Bv x - Bv y - Bv d)) with (Bv d) in T by ring. rewrite (Rabs_minus_sym (Bv x - Bv y) (Bv d)) in T.
  set (R := Rabs (Bv x - Bv y)) in *. assert (U : ulp1 * R <= 1/1000000000000 * R) by (apply Rmult_le_compat_r; [apply Rabs_pos|unfold ulp1; lra]).
  pose proof (Rabs_pos t). lra.
Qed.
Lemma close1_eq x y : Bfin x = true -> Bfin y = true -> Rabs (Bv y) <= 1000000000 -> Bv x = Bv y -> close1 Bnum x y = true.
Proof.
  intros Fx Fy Hy E. unfold close1. destruct (tol_B y Fy Hy) as [Fw [Hw _]]. set (w := fadd Bnum _ (fmul Bnum _ (fabs Bnum y))) in *. clearbody w.
  destruct (bminus_err x y Fx Fy) as [[Fd _] Z]; [rewrite E, Rminus_diag_eq, Rabs_R0 by reflexivity; apply bpow_ge_0|].
  apply ble_true; [apply babs_fin, Fd|exact Fw|]. rewrite babs_val, Z by lra. rewrite Rabs_R0. exact Hw.
Qed.

Lemma pp_bound A v : coefs A v -> bnd (6 * A) (pp v).
Proof.
  intros [L C]. destruct v as [|v0 [|v1 [|v2 [|v3 [|v4 [|v5 [|]]]]]]]; try discriminate L. clear L.
  inversion C as [|? ? C0 X0]; subst. inversion X0 as [|? ? C1 X1]; subst. inversion X1 as [|? ? C2 X2]; subst. inversion X2 as [|? ? C3 X3]; subst. inversion X3 as [|? ? C4 X4]; subst. inversion X4 as [|? ? C5 _]; subst.
  clear C X0 X1 X2 X3 X4. apply (coef_apx (la := la)) in C0 as [_ B0], C1 as [_ B1], C2 as [_ B2], C3 as [_ B3], C4 as [_ B4], C5 as [_ B5].
  assert (Epp : pp [v0; v1; v2; v3; v4; v5] = (- (val TAU v1 + val TAU v2) + TAU * (val TAU v0 - val TAU v4), - (val TAU v0 + val TAU v4) + TAU * (val TAU v3 + val TAU v5), (val TAU v3 - val TAU v5) + TAU * (val TAU v1 - val TAU v2))).
  { unfold pp, vals. cbn [map]. generalize (val TAU v0) (val TAU v1) (val TAU v2) (val TAU v3) (val TAU v4) (val TAU v5). intros.
    unfold perp, matvec, perp_rows. cbn. unfold dot; cbn. apply f_equal2; [apply f_equal2|]; ring. }
  rewrite Epp. revert B0 B1 B2 B3 B4 B5. generalize (val TAU v0) (val TAU v1) (val TAU v2) (val TAU v3) (val TAU v4) (val TAU v5). intros r0 r1 r2 r3 r4 r5 B0 B1 B2 B3 B4 B5.
  pose proof TAU_162 as T6. pose proof (Rabs_pos TAU) as TP. pose proof (Rabs_pos r0) as P0.
  assert (On : forall x y, Rabs x <= 2 * A -> Rabs y <= 2 * A -> Rabs (x + TAU * y) <= 6 * A).
  { intros x y Hx Hy. eapply Rle_trans; [apply Rabs_triang|]. rewrite Rabs_mult. pose proof (Rabs_pos y). nra. }
  cbn [bnd]. split; [|split]; apply On; rewrite ?Rabs_Ropp; first [eapply Rle_trans; [apply tri2; eassumption|lra] | eapply Rle_trans; [apply tri2m; eassumption|lra]].
Qed.

(** A point computed well enough. *)
Definition near (x : Num.pt Bnum) (p : R3) : Prop := P (1/2000000000) x p /\ bnd 100000000 p.
Lemma near_of v : coefs 100000 v -> exists x, internal Bnum v = Ok x /\ near x (pp v).
Proof.
  intros C. destruct (internal_B 100000 v ltac:(lra) C) as (x & E & H). exists x. split; [exact E|]. pose proof (pp_bound _ _ C) as B. unfold near. destruct x as [[a b] c], (pp v) as [[p q] r].
  destruct H as (H1 & H2 & H3), B as (B1 & B2 & B3). split; [split; [|split]|split; [|split]]; first [eapply apx_weaken; [eassumption|lra] | lra].
Qed.
Lemma near_apart x y p q : near x p -> near y q -> told_apart [fst (fst p); snd (fst p); snd p] [fst (fst q); snd (fst q); snd q] -> allclose Bnum x y = false.
Proof.
  destruct x as [[a b] c], y as [[a' b'] c'], p as [[p1 p2] p3], q as [[q1 q2] q3]. intros [(H1 & H2 & H3) (B1 & B2 & B3)] [(G1 & G2 & G3) (D1 & D2 & D3)] (i & s & t & Es & Et & _ & H).
  cbn [fst snd] in Es, Et. unfold allclose. apply not_true_iff_false. intros E. rewrite !andb_true_iff in E. destruct E as [[E1 E2] E3].
  destruct i as [|[|[|i]]]; cbn in Es, Et; try (destruct i; discriminate); injection Es as <-; injection Et as <-.
  - rewrite (close1_far a a' p1 q1) in E1 by assumption. discriminate E1.
  - rewrite (close1_far b b' p2 q2) in E2 by assumption. discriminate E2.
  - rewrite (close1_far c c' p3 q3) in E3 by assumption. discriminate E3.
Qed.
Lemma near_fin x p z : near x p -> In z (coords x) -> Bfin z = true /\ Rabs (Bv z) <= 1000000000.
Proof.
  destruct x as [[a b] c], p as [[p1 p2] p3]. intros [(H1 & H2 & H3) (B1 & B2 & B3)] [<-|[<-|[<-|[]]]].
  - split; [apply H1|]. pose proof (apx_abs _ _ _ H1). lra.
  - split; [apply H2|]. pose proof (apx_abs _ _ _ H2). lra.
  - split; [apply H3|]. pose proof (apx_abs _ _ _ H3). lra.
Qed.
Lemma near_ordered ps : (forall x, In x ps -> exists p, near x p) -> ordered Bnum (allclose Bnum) ps.
Proof.
  intros H. exists (fun z : F Bnum => Bv z). split.
  - intros p q x y Ip Iq Ix Iy. destruct (H p Ip) as (p' & Np). destruct (H q Iq) as (q' & Nq). apply blt_spec; [apply (near_fin _ _ _ Np Ix)|apply (near_fin _ _ _ Nq Iy)].
  - intros p q Ip Iq E. destruct (H p Ip) as (p' & Np). destruct (H q Iq) as (q' & Nq). pose proof (fun z => near_fin _ _ z Np) as Kp. pose proof (fun z => near_fin _ _ z Nq) as Kq.
    destruct p as [[a b] c], q as [[a' b'] c']. cbn [coords map In] in *. injection E as E1 E2 E3. unfold allclose. rewrite !andb_true_iff. split; [split|]; apply close1_eq; first [apply Kp; tauto|apply Kq; tauto|assumption].
Qed.
End Lib.

(** ** Centres of faces and edges on a grid *)
Lemma grid_coef q B x : (0 <= B)%Z -> (B <= 2^53)%Z -> (q <= 2^53)%Z -> (3 * B <= 100000 * q)%Z -> on_grid q B x -> Spec.Float.coef 100000 x.
Proof.
  destruct x as [a b c]. unfold on_grid, Spec.Float.coef. cbn [ta tb tc]. intros PB HB Hq H (Pq & k & Ek & Ha & Hb).
  assert (Nk : k <> 0%Z) by (intros ->; lia). assert (Nc : c <> 0%Z) by (intros ->; lia).
  rewrite Z.abs_mul in Ha, Hb. assert (Ec : (Z.abs k * Z.abs c = q)%Z) by (rewrite <- Z.abs_mul, Ek; lia). assert (K1 : (1 <= Z.abs k)%Z) by lia.
  split; [exact Nc|]. split; [pose proof (Z.abs_nonneg a); nia|]. split; [pose proof (Z.abs_nonneg b); nia|]. split; [pose proof (Z.abs_nonneg c); nia|].
  rewrite <- !abs_IZR, <- !mult_IZR, <- plus_IZR. apply IZR_le. apply (Z.mul_le_mono_pos_l _ _ (Z.abs k)); [lia|]. nia.
Qed.

Section Centres.
Context {la : linalg}.

(** The centre of a face or an edge as computed. *)
Lemma centre_near e q B : e <> [] -> (length e <= 4)%nat -> (0 <= B)%Z -> (0 < q <= 90000000)%Z -> (4 * B * q <= 10^15)%Z -> (3 * B <= 100000 * q)%Z -> grids 6 q B e ->
  exists x p, centre Bnum e = Ok x /\ near x p /\ [fst (fst p); snd (fst p); snd p] = pcentre e.
Proof.
  intros Ne Le PB Hq H1 H2 Ge. pose proof (grids_goods _ _ _ Ge) as G. unfold centre.
  assert (Ln : (0 < length e)%nat) by (destruct e; [congruence|cbn; lia]).
  destruct (L_C101_centroid q B e PB Hq Ne) as (m & _ & Em & [Lm Gm]); [nia|nia|exact Ge|]. rewrite Em. cbn [bind].
  destruct (near_of m) as (x & Ex & Nx).
  { split; [exact Lm|]. eapply Forall_impl; [|exact Gm]. intros c Gc. apply (grid_coef _ _ _) in Gc; [exact Gc| | | |]; nia. }
  exists x, (pp m). split; [exact Ex|]. split; [exact Nx|]. unfold centre in *. destruct (centre_R e Ne G) as (p & Ep & Kp). unfold centre in Ep. rewrite Em in Ep. cbn [bind] in Ep.
  rewrite internal_R in Ep by exact Lm. injection Ep as <-. exact Kp.
Qed.
Lemma centre_perm N e g : e <> [] -> goods 6 e -> Permutation e g -> centre N e = centre N g.
Proof. intros Ne G P. unfold centre. rewrite (L_C18_order e g Ne G P). reflexivity. Qed.
Lemma pcentre_perm e g : Permutation e g -> pcentre e = pcentre g.
Proof. intros P. unfold pcentre. apply mean_perm, Permutation_map, P. Qed.
Lemma told_irrefl p : ~ told_apart p p.
Proof. intros (i & x & y & Ex & Ey & H & _). rewrite Ex in Ey. injection Ey as <-. rewrite Rminus_diag_eq, Rabs_R0 in H by reflexivity. pose proof (Rabs_pos x). lra. Qed.

(** A list of faces or edges: any two are the same up to the order of the vertices, or have
    centres told apart. *)
Section List.
Variables (q B : Z) (es : obj4).
Hypothesis PB : (0 <= B)%Z.
Hypothesis Hq : (0 < q <= 90000000)%Z.
Hypothesis H1 : (4 * B * q <= 10^15)%Z.
Hypothesis H2 : (3 * B <= 100000 * q)%Z.
Hypothesis Hes : Forall (fun e => e <> [] /\ (length e <= 4)%nat /\ grids 6 q B e) es.
Hypothesis Hsep : forall e g, In e es -> In g es -> Permutation e g \/ told_apart (pcentre e) (pcentre g).

Lemma es_near e : In e es -> e <> [] /\ goods 6 e /\ exists x p, centre Bnum e = Ok x /\ near x p /\ [fst (fst p); snd (fst p); snd p] = pcentre e.
Proof.
  intros He. rewrite Forall_forall in Hes. destruct (Hes e He) as (Ne & Le & Ge). split; [exact Ne|]. split; [exact (grids_goods _ _ _ Ge)|]. exact (centre_near e q B Ne Le PB Hq H1 H2 Ge).
Qed.
Lemma es_same e g : In e es -> In g es -> pcentre e = pcentre g -> centre Bnum e = centre Bnum g.
Proof.
  intros He Hg E. destruct (es_near e He) as (Ne & G & _). destruct (Hsep e g He Hg) as [P|A]; [exact (centre_perm _ e g Ne G P)|]. rewrite E in A. apply told_irrefl in A as [].
Qed.
Lemma es_close e g x y : In e es -> In g es -> centre Bnum e = Ok x -> centre Bnum g = Ok y -> (allclose Bnum x y = true <-> pcentre e = pcentre g).
Proof.
  intros He Hg Ex Ey. destruct (es_near e He) as (Ne & G & x' & p & Ex' & Nx & Kp). destruct (es_near g Hg) as (_ & _ & y' & r & Ey' & Ny & Kr).
  rewrite Ex in Ex'. injection Ex' as <-. rewrite Ey in Ey'. injection Ey' as <-. split.
  - intros A. destruct (Hsep e g He Hg) as [P|T]; [exact (pcentre_perm e g P)|]. rewrite <- Kp, <- Kr in T. rewrite (near_apart x y p r Nx Ny T) in A. discriminate A.
  - intros E. pose proof (es_same e g He Hg E) as S. rewrite Ex, Ey in S. injection S as <-.
    destruct (near_ordered [x]) as (v & _ & O); [intros z [<-|[]]; exists p; exact Nx|]. 
    destruct (near_ordered [x]) as (v' & _ & O'); [intros z [<-|[]]; exists p; exact Nx|]. apply O'; cbn; auto.
Qed.
Lemma es_ordered ps : mapM (centre Bnum) es = Ok ps -> ordered Bnum (allclose Bnum) ps.
Proof.
  intros E. apply near_ordered. intros x Hx. apply mapM_Forall2 in E. apply In_nth_error in Hx as (i & Hx). destruct (F2_nth' _ _ _ _ _ E Hx) as (e & He & Ex). apply nth_error_In in He. destruct (es_near e He) as (_ & _ & x' & p & Ex' & Nx & _).
  rewrite Ex in Ex'. injection Ex' as <-. exists p. exact Nx.
Qed.
End List.
End Centres.

(** Picking one face or edge for every centre, in any arithmetic that computes equal centres
    as equal numbers and different ones as different numbers. *)
Lemma pick_unique_any N (centre : vecs -> res (pt N)) (pcentre : vecs -> list R) es ps : mapM centre es = Ok ps ->
  (forall f g, In f es -> In g es -> pcentre f = pcentre g -> centre f = centre g) ->
  (forall f g p q, In f es -> In g es -> centre f = Ok p -> centre g = Ok q -> (allclose N p q = true <-> pcentre f = pcentre g)) ->
  ordered N (allclose N) ps ->
  exists r, (a <- mapM centre es ;; mapM (get es) (unique_index (cmp_pt N) a))%res = Ok r /\
    NoDup (map pcentre r) /\ (forall e, In e es -> In (pcentre e) (map pcentre r)) /\
    (forall e, In e r -> exists i, nth_error es i = Some e /\ forall j g, (j < i)%nat -> nth_error es j = Some g -> pcentre g <> pcentre e).
Proof.
  intros Eps Hsame Hsep (v & Hv & Ht). pose proof (proj1 (mapM_Forall2 _ _ _) Eps) as FF. rewrite Eps. cbn [bind].
  rewrite (unique_index_map (cmp_pt N) lexR (keyof v) ps (cmp_pt_key N v ps Hv)). set (ks := map (keyof v) ps).
  assert (Lk : length es = length ks) by (unfold ks; rewrite map_length; clear - FF; induction FF; cbn; congruence).
  assert (At : forall i e, nth_error es i = Some e -> exists p, nth_error ks i = Some (keyof v p) /\ In p ps /\ centre e = Ok p /\ In e es).
  { intros i e Ei. destruct (F2_nth _ _ _ _ _ FF Ei) as (p & Ep & Cp). exists p. unfold ks. rewrite nth_error_map, Ep. split; [reflexivity|].
    split; [eapply nth_error_In; exact Ep|]. split; [exact Cp|eapply nth_error_In; exact Ei]. }
  assert (Key : forall i j e g k k', nth_error es i = Some e -> nth_error es j = Some g -> nth_error ks i = Some k -> nth_error ks j = Some k' -> (k = k' <-> pcentre e = pcentre g)).
  { intros i j e g k k' Ei Ej Ki Kj. destruct (At i e Ei) as (p & Kp & Ip & Cp & Ie). destruct (At j g Ej) as (q & Kq & Iq & Cq & Ig). rewrite Ki in Kp. injection Kp as ->. rewrite Kj in Kq. injection Kq as ->. split.
    - intros E. apply (Hsep e g p q Ie Ig Cp Cq). apply Ht; [exact Ip|exact Iq|exact E].
    - intros E. rewrite (Hsame e g Ie Ig E), Cq in Cp. injection Cp as ->. reflexivity. }
  destruct (unique_index_get lexR lawful_lexR es ks Lk) as (r & Er & Fr). exists r. split; [exact Er|].
  assert (Spec : forall n e, nth_error r n = Some e -> exists i k, nth_error (unique_index lexR ks) n = Some i /\ nth_error es i = Some e /\ nth_error ks i = Some k /\ forall j, nth_error ks j = Some k -> (i <= j)%nat).
  { intros n e Hn. destruct (F2_nth' _ _ _ _ _ Fr Hn) as (i & Hi & Ei). pose proof (nth_error_In _ _ Hi) as Ii. apply (unique_index_spec lexR lawful_lexR) in Ii as (k & Hk & Hm). exists i, k. auto. }
  split; [|split].
  - apply NoDup_nth_error. intros a b Ha E. rewrite map_length in Ha. destruct (nth_error r a) as [e|] eqn:Ea; [|apply nth_error_None in Ea; lia].
    rewrite !nth_error_map, Ea in E. destruct (nth_error r b) as [g|] eqn:Eb; [|discriminate E]. cbn in E. injection E as E.
    destruct (Spec a e Ea) as (i & k & Hi & Ei & Ki & Mi). destruct (Spec b g Eb) as (j & k' & Hj & Ej & Kj & Mj).
    apply (Key i j e g k k' Ei Ej Ki Kj) in E. subst k'. assert (i = j) by (specialize (Mi j Kj); specialize (Mj i Ki); lia). subst j.
    pose proof (unique_index_keys lexR lawful_lexR ks) as K. pose proof (unique_NoDup lexR lawful_lexR ks) as ND. rewrite NoDup_nth_error in ND. apply ND.
    + apply nth_error_Some. intros X. assert (Y : nth_error (map Some (unique lexR ks)) a = None) by (rewrite nth_error_map, X; reflexivity). rewrite <- K, nth_error_map, Hi in Y. discriminate Y.
    + assert (Y : nth_error (map Some (unique lexR ks)) a = nth_error (map Some (unique lexR ks)) b) by (rewrite <- K, !nth_error_map, Hi, Hj; reflexivity).
      rewrite !nth_error_map in Y. destruct (nth_error (unique lexR ks) a), (nth_error (unique lexR ks) b); cbn in Y; congruence.
  - intros e He. apply In_nth_error in He as (i & Ei). destruct (At i e Ei) as (p & Kp & _).
    assert (U : In (keyof v p) (unique lexR ks)) by (apply (unique_In lexR lawful_lexR); eapply nth_error_In; exact Kp). apply In_nth_error in U as (n & Un).
    pose proof (unique_index_keys lexR lawful_lexR ks) as K. assert (Y : nth_error (map (nth_error ks) (unique_index lexR ks)) n = Some (Some (keyof v p))) by (rewrite K, nth_error_map, Un; reflexivity).
    rewrite nth_error_map in Y. destruct (nth_error (unique_index lexR ks) n) as [j|] eqn:Ej; [|discriminate Y]. cbn in Y. injection Y as Y.
    destruct (F2_nth _ _ _ _ _ Fr Ej) as (g & Hg & Eg). apply in_map_iff. exists g. split; [|eapply nth_error_In; exact Hg]. apply (Key j i g e _ _ Eg Ei Y Kp). reflexivity.
  - intros e He. apply In_nth_error in He as (n & Hn). destruct (Spec n e Hn) as (i & k & _ & Ei & Ki & Mi). exists i. split; [exact Ei|]. intros j g Hj Eg E.
    destruct (At j g Eg) as (p & Kj & _). apply (Key j i g e _ _ Eg Ei Kj Ki) in E. subst k. specialize (Mi j Kj). lia.
Qed.
